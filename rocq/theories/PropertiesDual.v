(** C11-C14, C73 (and C09 for paired boundaries). *)
From Coq Require Import String ZArith QArith List Bool Lia Sorted.
From Verif Require Import PyBase CycleModel CycleSpec CycleProofs
  DriverModel DriverSpec DriverProofs DualModel DualSpec DualProofs.
Import ListNotations.
Open Scope string_scope.
Open Scope list_scope.
Open Scope Z_scope.

(** A boundary with all records good at the given seconds. *)
Definition ex_times (secs : list Z) : boundary :=
  mkB (zlen secs) (-1) (map (fun s => s * usec) secs) (map (fun _ => Fin 2) secs)
      (Fin 1) (Fin 4) [].

Lemma ex_times_wf secs : wf_boundary (ex_times secs).
Proof.
  split; [simpl; unfold zlen; lia|]. split; [simpl; apply zlen_map|].
  split; [simpl; apply zlen_map|]. intros k l. unfold getattr, ex_times. simpl.
  destruct (String.eqb k "fom"); [intros H; injection H as <-; apply zlen_map|].
  destruct (String.eqb k "dtime"); [|discriminate].
  intros H; injection H as <-. now rewrite !zlen_map.
Qed.

(** DualBoundary(ocb=..., eab=..., max_delta=...) before set_good_ind. *)
Definition ex_dual (osecs esecs : list Z) (delta : Z) : dual :=
  mkD (ex_times osecs) (ex_times esecs) true delta 0 [] [] [] None.

(** ** C11 *)
Theorem C11_pairs_valid :
  forall d omn omx oks emn emx eks,
    wf_boundary (d_ocb d) -> wf_boundary (d_eab d) ->
    wf_crits (d_ocb d) oks -> wf_crits (d_eab d) eks ->
    0 <= d_max_delta d -> d_loaded d = true ->
    exists d', set_good_ind d omn omx oks emn emx eks = Ok d' /\
      zlen (d_dtime d') = d_records d' /\ zlen (d_ocb_ind d') = d_records d' /\
      zlen (d_eab_ind d') = d_records d' /\
      d_dtime d' = map (tm (b_dtime (d_ocb d))) (d_ocb_ind d') /\
      StronglySorted Z.le (d_ocb_ind d') /\ StronglySorted Z.lt (d_eab_ind d') /\
      (forall p, In p (combine (d_ocb_ind d') (d_eab_ind d')) ->
         pairable (d_ocb d) (d_eab d) omn omx emn emx oks eks
           (d_max_delta d * 1000000) (fst p) (snd p)) /\
      same_data (d_ocb d) (d_ocb d') /\ same_data (d_eab d) (d_eab d') /\
      d_rec d' = Some 0 /\ in_step d'.
Proof.
  intros d omn omx oks emn emx eks WO WE CO CE Hd Hl.
  destruct (set_good_ind_spec d omn omx oks emn emx eks WO WE CO CE Hd Hl)
    as [d' [A [B [C [D [E [[F1 [F2 F3]] [G [H [I [J [K [L _]]]]]]]]]]]]].
  exists d'. split; [exact A|]. split; [now symmetry|]. split; [exact F2|].
  split; [exact F3|]. split; [exact I|]. split; [exact J|]. split; [exact K|].
  split; [exact L|]. auto.
Qed.

Example C11_case :
  exists d', set_good_ind (ex_dual [0; 100; 300; 390] [20; 95; 200; 395] 60)
               None None [] None None [] = Ok d' /\
    d_ocb_ind d' = [0; 1; 3] /\ d_eab_ind d' = [0; 1; 3] /\ d_records d' = 3.
Proof. eexists. split; [vm_compute; reflexivity|]. repeat split; reflexivity. Qed.

(** ** C12: one-to-one and complete when the good records of each boundary are
    more than 2 max_delta apart; false in general *)
Theorem C12_one_to_one_when_spaced_partial :
  forall d omn omx oks emn emx eks,
    wf_boundary (d_ocb d) -> wf_boundary (d_eab d) ->
    wf_crits (d_ocb d) oks -> wf_crits (d_eab d) eks ->
    0 <= d_max_delta d -> d_loaded d = true ->
    spaced (d_eab d) emn emx eks (2 * (d_max_delta d * 1000000)) ->
    exists d', set_good_ind d omn omx oks emn emx eks = Ok d' /\
      StronglySorted Z.lt (d_ocb_ind d') /\ StronglySorted Z.lt (d_eab_ind d') /\
      (spaced (d_ocb d) omn omx oks (2 * (d_max_delta d * 1000000)) ->
       strictly_time_sorted (b_dtime (d_eab d)) -> time_sorted (b_dtime (d_ocb d)) ->
       forall io ie, In (io, ie) (combine (d_ocb_ind d') (d_eab_ind d')) <->
         pairable (d_ocb d) (d_eab d) omn omx emn emx oks eks
           (d_max_delta d * 1000000) io ie).
Proof.
  intros d omn omx oks emn emx eks WO WE CO CE Hd Hl Sp.
  destruct (set_good_ind_spec d omn omx oks emn emx eks WO WE CO CE Hd Hl)
    as [d' [A [_ [_ [_ [_ [_ [_ [_ [_ [_ [K [_ [M P]]]]]]]]]]]]]].
  exists d'. split; [exact A|]. split; [now apply M|]. split; [exact K|].
  intros SpO S1 S2. now apply P.
Qed.

Theorem C12_one_to_one_refuted :
  exists d d', wf_boundary (d_ocb d) /\ wf_boundary (d_eab d) /\
    d_loaded d = true /\ 0 < d_max_delta d /\
    b_dtime (d_ocb d) = b_dtime (d_eab d) /\
    strictly_time_sorted (b_dtime (d_ocb d)) /\
    set_good_ind d None None [] None None [] = Ok d' /\
    (* every OCB has an EAB at its own time, yet *)
    d_ocb_ind d' = [0; 0; 1] /\ d_eab_ind d' = [0; 1; 2].
Proof.
  exists (ex_dual [0; 60; 120] [0; 60; 120] 60). eexists.
  split; [apply ex_times_wf|]. split; [apply ex_times_wf|]. split; [reflexivity|].
  split; [simpl; lia|]. split; [reflexivity|]. split.
  { intros i j H1 H2. assert (Hj : j < 3) by exact H2.
    assert (Ei : i = 0 \/ i = 1) by lia. assert (Ej : j = 1 \/ j = 2) by lia.
    destruct Ei as [->| ->]; destruct Ej as [->| ->]; try lia; reflexivity. }
  split; [vm_compute; reflexivity|]. split; reflexivity.
Qed.

(** Data meeting the spacing hypotheses (max_delta = 10 s). *)
Example C12_case :
  exists d', set_good_ind (ex_dual [0; 100; 200; 300] [95; 208; 250; 311] 10)
               None None [] None None [] = Ok d' /\
    combine (d_ocb_ind d') (d_eab_ind d') = [(1, 0); (2, 1)].
Proof. eexists. split; [vm_compute; reflexivity|reflexivity]. Qed.

(** ** C13 *)
Theorem C13_assignment_in_step :
  forall d r, wf_dual d -> r <= d_records d ->
    exists d', dual_set_rec_ind d r = Ok d' /\ same_pairs d d' /\
      d_rec d' = Some r /\ in_step d'.
Proof.
  intros d r W H. destruct (dual_set_ok d r W H) as [d' [A [B [C D]]]].
  exists d'. auto.
Qed.

Theorem C13_cycling_visits_in_order :
  forall d omn omx oks emn emx eks,
    wf_boundary (d_ocb d) -> wf_boundary (d_eab d) ->
    wf_crits (d_ocb d) oks -> wf_crits (d_eab d) eks ->
    0 <= d_max_delta d -> d_loaded d = true ->
    exists d0, set_good_ind d omn omx oks emn emx eks = Ok d0 /\
      forall n, exists dn, cycle_n n d0 = Ok dn /\ same_pairs d0 dn /\ in_step dn /\
        d_rec dn = Some (Z.min (Z.of_nat n) (d_records d0)).
Proof.
  intros d omn omx oks emn emx eks WO WE CO CE Hd Hl.
  destruct (set_good_ind_spec d omn omx oks emn emx eks WO WE CO CE Hd Hl)
    as [d' [A [_ [_ [_ [_ [W [S [R _]]]]]]]]].
  exists d'. split; [exact A|]. intros n.
  destruct (cycle_n_spec n d' 0 W S R ltac:(lia)) as [dn [B [C [D E]]]].
  exists dn. auto.
Qed.

Example C13_case :
  exists d0 d1 d9, set_good_ind (ex_dual [0; 100; 300; 390] [20; 95; 200; 395] 60)
                None None [] None None [] = Ok d0 /\
    cycle_n 2 d0 = Ok d1 /\ b_rec_ind (d_ocb d1) = 3 /\ b_rec_ind (d_eab d1) = 3 /\
    cycle_n 9 d0 = Ok d9 /\ d_rec d9 = Some 3 /\ b_rec_ind (d_ocb d9) = 4.
Proof.
  eexists. eexists. eexists. split; [vm_compute; reflexivity|].
  split; [vm_compute; reflexivity|]. split; [reflexivity|]. split; [reflexivity|].
  split; [vm_compute; reflexivity|]. split; reflexivity.
Qed.

(** ** C14 *)
Definition undefined_at (b : boundary) : Prop :=
  b_rec_ind b < 0 \/ b_records b <= b_rec_ind b.

(** Negative or exactly [records]: both components become undefined. *)
Theorem C14_out_of_range_partial :
  forall d r, wf_dual d -> r < 0 \/ r = d_records d ->
    exists d', dual_set_rec_ind d r = Ok d' /\
      undefined_at (d_ocb d') /\ undefined_at (d_eab d').
Proof.
  intros d r W H.
  assert (Hr : r <= d_records d) by (destruct W as [W _]; rewrite W in *; unfold zlen in *; lia).
  destruct (dual_set_ok d r W Hr) as [d' [A [B [[r' [C1 [C2 C3]]] D]]]].
  exists d'. split; [exact A|]. rewrite D in C1. injection C1 as <-.
  assert (Hrec : d_records d' = d_records d) by apply B.
  unfold undefined_at.
  destruct C3 as [[C3 [C4 C5]]|[[C3 _]|[C3 [C4 [C5 C6]]]]]; [lia|lia|lia].
Qed.

(** k records past the end: the components are k records before their ends. *)
Theorem C14_far_out_of_range :
  forall d k, wf_dual d -> 0 <= k ->
    exists d', dual_set_rec_ind d (d_records d + k) = Ok d' /\
      b_rec_ind (d_ocb d') = b_records (d_ocb d) - k /\
      b_rec_ind (d_eab d') = b_records (d_eab d) - k.
Proof.
  intros d k [W _] Hk. assert (0 <= d_records d) by (rewrite W; unfold zlen; lia).
  unfold dual_set_rec_ind. rewrite (proj2 (Z.ltb_ge _ _)) by lia.
  rewrite (proj2 (Z.leb_le _ _)) by lia. eexists. split; [reflexivity|]. cbn. lia.
Qed.

Theorem C14_out_of_range_refuted :
  exists d r d', wf_dual d /\ d_records d < r /\ dual_set_rec_ind d r = Ok d' /\
    ~ undefined_at (d_ocb d') /\ ~ undefined_at (d_eab d').
Proof.
  exists (mkD (ex_times [0; 60]) (ex_times [0; 60]) true 60 2 [0; 60 * usec] [0; 1] [0; 1] (Some 0)), 3.
  eexists. split; [repeat split|]. split; [simpl; lia|]. split; [vm_compute; reflexivity|].
  unfold undefined_at. simpl. split; lia.
Qed.

(** ** C09 for a DualBoundary whose cursor is in step *)
Theorem C09_vort_pairs_exact_dual :
  forall d dat max_sdiff r0,
    wf_dual d -> in_step d -> d_rec d = Some r0 -> -1 <= r0 < d_records d ->
    0 < d_records d -> strictly_time_sorted (d_dtime d) -> time_sorted dat ->
    0 <= max_sdiff -> dat <> [] ->
    let usable := candidate (fun k => 0 <= k < d_records d) (d_records d) r0 in
    let disjoint := disjoint_periods (d_dtime d) dat (fun k => 0 <= k < d_records d)
                      (d_records d) r0 (max_sdiff * 1000000) in
    (disjoint /\ vort_pairs_dual d dat max_sdiff None None [] = Err TypeError) \/
    (~ disjoint /\ exists l, vort_pairs_dual d dat max_sdiff None None [] = Ok l /\
       pairs_exactly (d_dtime d) dat usable (max_sdiff * 1000000) l).
Proof.
  intros d dat mt r0 W S R Hr Hp SS SD Ht Hd usable disjoint.
  exact (vort_pairs_dual_spec d dat mt W SS SD Ht Hd S r0 R Hr Hp).
Qed.

Example C09_dual_case :
  exists d0, set_good_ind (ex_dual [0; 100; 300; 390] [20; 95; 200; 395] 30)
               None None [] None None [] = Ok d0 /\
    vort_pairs_dual d0 (map (fun s => s * usec) [10; 60; 90; 250; 400]) 30 None None []
    = Ok [(0, 0); (2, 1); (4, 2)].
Proof. eexists. split; [vm_compute; reflexivity|]. vm_compute. reflexivity. Qed.

(** ** C73: the radius index is the pair index, not the OCB index *)
Theorem C73_radius_when_indices_agree_partial :
  forall d r, in_step d ->
    (forall k, 0 <= k < d_records d -> nth_error (d_ocb_ind d) (Z.to_nat k) = Some k) ->
    forall k, d_rec d = Some k -> 0 <= k < d_records d ->
    vort_radius_dual d r = vort_radius_ocb (d_ocb d) r.
Proof.
  intros d r [r' [S1 [S2 S3]]] Hid k Hk Hr. rewrite Hk in S1. injection S1 as <-.
  unfold vort_radius_dual, vort_radius_ocb, dual_rec_ind. rewrite Hk. cbn [bind].
  destruct S3 as [[S3 _]|[[_ [S3 _]]|[_ [S3 _]]]]; [lia| |lia].
  rewrite Hid in S3 by exact Hr. injection S3 as <-. reflexivity.
Qed.

Theorem C73_matched_radius_refuted :
  exists d d0 d1 r, wf_boundary (d_ocb d) /\ wf_boundary (d_eab d) /\
    set_good_ind d None None [] None None [] = Ok d0 /\
    zlen r = b_records (d_ocb d) /\
    (* the first pair, OCB record 1, is scaled with the radius of record 0 *)
    vort_radius_dual d0 r = Ok (Fin 10) /\ vort_radius_ocb (d_ocb d0) r = Ok (Fin 20) /\
    (* and with one OCB paired twice the radius index can leave the array *)
    set_good_ind (ex_dual [0] [0; 60] 60) None None [] None None [] = Ok d1 /\
    exists d2, dual_get_next_good_ind d1 = Ok d2 /\ d_rec d2 = Some 1 /\
      d_records d2 = 2 /\ vort_radius_dual d2 [Fin 10] = Err IndexError /\
      vort_radius_ocb (d_ocb d2) [Fin 10] = Ok (Fin 10).
Proof.
  exists (ex_dual [0; 300] [300] 60). eexists. eexists. exists [Fin 10; Fin 20].
  split; [apply ex_times_wf|]. split; [apply ex_times_wf|].
  split; [vm_compute; reflexivity|]. split; [reflexivity|]. split; [reflexivity|].
  split; [reflexivity|]. split; [vm_compute; reflexivity|].
  eexists. split; [vm_compute; reflexivity|]. repeat split; reflexivity.
Qed.

(** A pair list meeting the hypotheses of the positive statement. *)
Example C73_case :
  exists d0, set_good_ind (ex_dual [0; 300] [5; 301] 60) None None [] None None [] = Ok d0 /\
    d_ocb_ind d0 = [0; 1] /\ vort_radius_dual d0 [Fin 10; Fin 20] = Ok (Fin 10).
Proof. eexists. split; [vm_compute; reflexivity|]. split; reflexivity. Qed.

Print Assumptions C11_pairs_valid.
Print Assumptions C12_one_to_one_when_spaced_partial.
Print Assumptions C12_one_to_one_refuted.
Print Assumptions C13_assignment_in_step.
Print Assumptions C13_cycling_visits_in_order.
Print Assumptions C14_out_of_range_partial.
Print Assumptions C14_far_out_of_range.
Print Assumptions C14_out_of_range_refuted.
Print Assumptions C09_vort_pairs_exact_dual.
Print Assumptions C73_radius_when_indices_agree_partial.
Print Assumptions C73_matched_radius_refuted.
