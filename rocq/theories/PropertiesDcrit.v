(** C172-C173: selection criteria given together with a DualBoundary. *)
From Coq Require Import String ZArith QArith List Bool Lia Sorted.
From Verif Require Import PyBase CycleModel CycleSpec CycleProofs DriverModel DriverSpec
  DriverProofs DualModel DualSpec DualProofs PropertiesDual DcritProofs.
Import ListNotations.
Open Scope string_scope.
Open Scope list_scope.
Open Scope Z_scope.

Lemma all_candidate d k : candidate (all_pairs d) (d_records d) 0 k <-> 0 <= k < d_records d.
Proof. unfold candidate, all_pairs. split; [intros [H _]; exact H|intros H; split; [exact H|lia]]. Qed.

Lemma closest_ext dtime dat C C' i r : (forall k, C k <-> C' k) ->
  closest dtime dat C i r <-> closest dtime dat C' i r.
Proof.
  intros H. unfold closest. rewrite (H r). split; intros [A B]; (split; [exact A|]);
    intros k Hk; apply B; now apply H.
Qed.

(** ** C172: processing with criteria uses exactly the pairs the criteria
    select *)
Theorem C172_criteria_select_pairs_partial :
  forall d dat max_sdiff mn mx ks r0,
    wf_boundary (d_ocb d) -> wf_boundary (d_eab d) ->
    wf_crits (d_ocb d) ks -> wf_crits (d_eab d) ks ->
    0 <= d_max_delta d -> d_loaded d = true -> 0 <= max_sdiff ->
    (* a record is selected before the processing starts *)
    d_rec d = Some r0 -> r0 < d_records d ->
    (* some criterion is given *)
    ~ (mn = None /\ mx = None /\ ks = []) ->
    time_sorted dat -> dat <> [] ->
    exists d1, set_good_ind d mn mx ks mn mx ks = Ok d1 /\
      (forall io ie, In (io, ie) (combine (d_ocb_ind d1) (d_eab_ind d1)) ->
         pairable (d_ocb d) (d_eab d) mn mx mn mx ks ks (d_max_delta d * 1000000) io ie) /\
      (strictly_time_sorted (d_dtime d1) ->
       let tol := max_sdiff * 1000000 in
       let early := 0 < d_records d1 /\
         forall k, 0 <= k < d_records d1 -> tm (d_dtime d1) k < tm dat 0 - tol in
       (early /\ vort_pairs_dual d dat max_sdiff mn mx ks = Err TypeError) \/
       (~ early /\ exists l, vort_pairs_dual d dat max_sdiff mn mx ks = Ok l /\
          pairs_exactly (d_dtime d1) dat (fun k => 0 <= k < d_records d1) tol l)).
Proof.
  intros d dat ms mn mx ks r0 WO WE CO CE Hdel L Hms Hr0 Hr Hg SD Hd.
  destruct (set_good_ind_spec d mn mx ks mn mx ks WO WE CO CE Hdel L)
    as [d1 [A [O1 [E1 [M1 [L1 [W [HI [H1 [_ [_ [_ [Hp _]]]]]]]]]]]]].
  exists d1. split; [exact A|]. split.
  { intros io ie H. exact (Hp (io, ie) H). }
  intros SS tol early.
  assert (Hn : 0 < zlen dat) by (unfold zlen; destruct dat; [contradiction|cbn [length]; lia]).
  destruct (Z_lt_le_dec 0 (d_records d1)) as [Hpos|Hz].
  - assert (Hrdy : ready d1 mn mx ks d) by (split; [exact A|eauto]).
    pose proof (stuck_disjoint (d_records d1) (d_dtime d1) dat tol (all_pairs d1) 0
      ltac:(lia) Hn) as Hs.
    assert (Hde : disjoint_periods (d_dtime d1) dat (all_pairs d1) (d_records d1) 0 tol <-> early).
    { unfold disjoint_periods, early. split.
      - intros [[[k Hk] H]|[H _]]; [|lia]. split; [exact Hpos|]. intros j Hj.
        apply H, all_candidate, Hj.
      - intros [_ H]. left. split; [exists 0; apply all_candidate; lia|].
        intros k Hk. apply H, all_candidate, Hk. }
    destruct (reset_loop d d1 dat ms mn mx ks Hg L A H1 W L1 M1 O1 E1 SS SD Hms Hpos
      (S (length dat)) d 0 Hrdy ltac:(lia) ltac:(unfold zlen; lia)) as [[B C]|[B [l [C D]]]].
    + left. split; [now apply Hde, Hs|exact C].
    + right. split; [intros X; now apply B, Hs, Hde|]. exists l. split; [exact C|].
      destruct D as [D1 D2]. split; [exact D1|]. intros i r. rewrite D2.
      rewrite (closest_ext _ _ _ (fun k => 0 <= k < d_records d1) i r (all_candidate d1)).
      reflexivity.
  - right. split; [intros [X _]; lia|]. exists [].
    assert (Hz0 : d_records d1 = 0) by (destruct W as [W _]; unfold zlen in W; lia).
    split.
    + unfold vort_pairs_dual. cbn [vort_loop].
      assert (XC : (dual_cursor d <? d_records d) = true)
        by (unfold dual_cursor; rewrite Hr0; now apply Z.ltb_lt).
      rewrite XC, (proj2 (Z.ltb_lt _ _)) by exact Hn. cbn [andb].
      rewrite (match_dual_given d d1 dat 0 ms mn mx ks r0 Hg Hr0 Hr Hn A H1 W).
      rewrite (proj2 (Z.leb_le _ _)) by lia. cbn [bind].
      assert (XC1 : (dual_cursor d1 <? d_records d1) = false)
        by (unfold dual_cursor; rewrite H1; apply Z.ltb_ge; lia).
      rewrite XC1, andb_false_r. destruct (length dat); cbn [vort_loop];
        rewrite XC1, andb_false_r; reflexivity.
    + split; [constructor|]. intros i r. split; [intros []|].
      intros [_ [_ [K _]]]. cbv beta in K. lia.
Qed.

(** Boundaries at the given seconds with the given figures of merit; limits 1
    to 4. *)
Definition ex_fom (recs : list (Z * Z)) : boundary :=
  mkB (zlen recs) (-1) (map (fun p => fst p * usec) recs)
      (map (fun p => Fin (inject_Z (snd p))) recs) (Fin 1) (Fin 4) [].

Lemma ex_fom_wf recs : wf_boundary (ex_fom recs).
Proof.
  split; [simpl; unfold zlen; lia|]. split; [simpl; apply zlen_map|].
  split; [simpl; apply zlen_map|]. intros k l. unfold getattr, ex_fom. simpl.
  destruct (String.eqb k "fom"); [intros H; injection H as <-; apply zlen_map|].
  destruct (String.eqb k "dtime"); [|discriminate].
  intros H; injection H as <-. now rewrite !zlen_map.
Qed.

Definition ex_dfom (o e : list (Z * Z)) (delta : Z) : dual :=
  mkD (ex_fom o) (ex_fom e) true delta 0 [] [] [] None.

Definition ex_o := [(0, 2); (100, 3); (200, 1); (300, 3)].
Definition ex_e := [(5, 3); (105, 3); (205, 3); (305, 4)].

(** max_delta 10 s; the default limits keep four pairs, min_merit = 3 the
    second and fourth. *)
Example C172_case :
  exists d0, set_good_ind (ex_dfom ex_o ex_e 10) None None [] None None [] = Ok d0 /\
    d_records d0 = 4 /\ d_rec d0 = Some 0 /\
    vort_pairs_dual d0 (map (fun s => s * usec) [10; 90; 210; 250; 310]) 60 None None []
    = Ok [(0, 0); (1, 1); (2, 2); (3, 2); (4, 3)] /\
    (* with the criterion the records are numbered among the two pairs left *)
    vort_pairs_dual d0 (map (fun s => s * usec) [10; 90; 210; 250; 310]) 60
      (Some (Fin 3)) None [] = Ok [(1, 0); (3, 1); (4, 1)].
Proof.
  eexists. split; [vm_compute; reflexivity|]. split; [reflexivity|]. split; [reflexivity|].
  split; vm_compute; reflexivity.
Qed.

(** Looser criteria are not looked at when no pair met the default limits. *)
Theorem C172_no_default_pair_refuted :
  exists d d0 d1 dat,
    wf_boundary (d_ocb d) /\ wf_boundary (d_eab d) /\ d_loaded d = true /\
    set_good_ind d None None [] None None [] = Ok d0 /\ d_rec d0 = Some 0 /\
    (* max_merit = 9 selects a pair at the time of the only measurement *)
    set_good_ind d0 None (Some (Fin 9)) [] None (Some (Fin 9)) [] = Ok d1 /\
    d_records d1 = 1 /\ d_dtime d1 = dat /\
    (* and processing with max_merit = 9 pairs nothing *)
    vort_pairs_dual d0 dat 60 None (Some (Fin 9)) [] = Ok [] /\
    match_data_dual d0 dat 0 60 None (Some (Fin 9)) [] = Ok (Some 0, d0).
Proof.
  exists (ex_dfom [(0, 8)] [(5, 8)] 10). eexists. eexists. exists [0].
  split; [apply ex_fom_wf|]. split; [apply ex_fom_wf|]. split; [reflexivity|].
  split; [vm_compute; reflexivity|]. split; [reflexivity|].
  split; [vm_compute; reflexivity|]. split; [reflexivity|]. split; [reflexivity|].
  split; vm_compute; reflexivity.
Qed.

(** ** C173: a call with criteria does not depend on earlier calls *)
Theorem C173_criteria_forget_history_partial :
  forall d d' ops dat i max_tol mn mx ks r r',
    d_loaded d = true -> apply_ops d ops = Ok d' ->
    d_rec d = Some r -> r < d_records d -> d_rec d' = Some r' -> r' < d_records d' ->
    ~ (mn = None /\ mx = None /\ ks = []) -> i < zlen dat ->
    match_data_dual d' dat i max_tol mn mx ks = match_data_dual d dat i max_tol mn mx ks.
Proof.
  intros d d' ops dat i tol mn mx ks r r' L H R1 R2 R3 R4 G Hi.
  eapply match_dual_forget; try eassumption. eapply apply_ops_same, H.
Qed.

Example C173_case :
  exists d0 d1 d2, set_good_ind (ex_dfom ex_o ex_e 10) None None [] None None [] = Ok d0 /\
    apply_ops d0 [Match [90 * usec] 0 60 (Some (Fin 3)) None []; Next; Cursor (-1)] = Ok d1 /\
    d_rec d1 = Some (-1) /\ d_records d1 = 2 /\
    match_data_dual d1 [210 * usec] 0 60 None (Some (Fin 3)) [] = Ok (Some 0, d2) /\
    match_data_dual d0 [210 * usec] 0 60 None (Some (Fin 3)) [] = Ok (Some 0, d2) /\
    d_rec d2 = Some 2 /\ d_records d2 = 3.
Proof.
  eexists. eexists. eexists. split; [vm_compute; reflexivity|].
  split; [vm_compute; reflexivity|]. split; [reflexivity|]. split; [reflexivity|].
  split; [vm_compute; reflexivity|]. split; [vm_compute; reflexivity|]. split; reflexivity.
Qed.

(** A later call without criteria keeps the restricted pairs: the measurement
    the fresh object pairs is then not paired. *)
Theorem C173_criteria_persist_refuted :
  exists d0 d1 o dat, wf_boundary (d_ocb d0) /\ wf_boundary (d_eab d0) /\ d_loaded d0 = true /\
    d_rec d0 = Some 0 /\ 0 < d_records d0 /\
    match_data_dual d0 dat 1 10 (Some (Fin 3)) None [] = Ok (o, d1) /\
    d_rec d1 = Some 0 /\ 0 < d_records d1 /\
    vort_pairs_dual d0 dat 10 None None [] = Ok [(0, 0); (1, 1)] /\
    vort_pairs_dual d1 dat 10 None None [] = Ok [(1, 0)].
Proof.
  destruct (set_good_ind (ex_dfom ex_o ex_e 10) None None [] None None []) as [d0|] eqn:E0;
    [|vm_compute in E0; discriminate].
  exists d0. vm_compute in E0. injection E0 as <-. eexists. eexists.
  exists [0; 100 * usec].
  split; [apply (ex_fom_wf ex_o)|]. split; [apply (ex_fom_wf ex_e)|]. split; [reflexivity|].
  split; [reflexivity|]. split; [reflexivity|]. split; [vm_compute; reflexivity|].
  split; [reflexivity|]. split; [reflexivity|].
  split; vm_compute; reflexivity.
Qed.

Print Assumptions C172_criteria_select_pairs_partial.
Print Assumptions C172_no_default_pair_refuted.
Print Assumptions C173_criteria_forget_history_partial.
Print Assumptions C173_criteria_persist_refuted.
