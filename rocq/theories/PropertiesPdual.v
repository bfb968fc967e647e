(** C174-C176: SuperMAG and pysat data processed with a DualBoundary. *)
From Coq Require Import String Ascii ZArith QArith List Bool Lia Sorted.
From Verif Require Import PyBase TimeModel FilesModel SmagModel CycleModel CycleSpec CycleProofs DriverModel DriverSpec
  DriverProofs DualModel DualSpec DualProofs DcritProofs PropertiesDual PropertiesDcrit PysatModel PysatSpec PysatProofs PysatProofs2 FilesProofs PmetaProofs
  PdualModel PdualProofs.
Import ListNotations.
Open Scope string_scope.
Open Scope list_scope.
Open Scope Z_scope.

(** ** C174: SuperMAG data and a dual boundary *)
Theorem C174_default_pairs_partial :
  forall d dat max_sdiff r0,
    wf_dual d -> in_step d -> d_rec d = Some r0 -> -1 <= r0 < d_records d ->
    0 < d_records d -> strictly_time_sorted (d_dtime d) -> time_sorted dat ->
    0 <= max_sdiff -> dat <> [] ->
    let usable := candidate (fun k => 0 <= k < d_records d) (d_records d) r0 in
    let disjoint := disjoint_periods (d_dtime d) dat (fun k => 0 <= k < d_records d)
                      (d_records d) r0 (max_sdiff * 1000000) in
    (disjoint /\ supermag_pairs_dual d dat max_sdiff None None [] = Err TypeError) \/
    (~ disjoint /\ exists l, supermag_pairs_dual d dat max_sdiff None None [] = Ok l /\
       pairs_exactly (d_dtime d) dat usable (max_sdiff * 1000000) l).
Proof.
  intros d dat mt r0 W S R Hr Hp SS SD Ht Hd usable disjoint.
  assert (Hn : 0 < zlen dat) by (unfold zlen; destruct dat; [contradiction|cbn [length]; lia]).
  assert (Htol : 0 <= mt * usec) by (unfold usec; lia).
  pose proof (stuck_disjoint (d_records d) (d_dtime d) dat (mt * usec) (all_pairs d) r0 Hr Hn) as Hs.
  destruct (supermag_loop_spec (d_records d) (d_dtime d) (dual_cycle (d_records d)) dat (mt * usec)
    (all_pairs d) dual d_records dual_cursor
    (fun d i => match_data_dual d dat i mt None None [])
    (dual_at d) ltac:(symmetry; apply W) (dual_cycle_good d Hp) (fun k H => H)
    SS SD Htol (fun r => proj1 (dual_at_fields d r W))
    (fun r => dual_at_cursor d r W)
    (match_dual_mk d dat mt W)
    (Datatypes.S (length dat)) r0 0) as [[A B]|[A [l [B C]]]]; try lia.
  { unfold zlen. lia. }
  - left. split; [now apply Hs|]. unfold supermag_pairs_dual.
    rewrite (dual_at_self d r0 W S R) in B. exact B.
  - right. split; [intros D; apply A, Hs, D|]. exists l.
    rewrite (dual_at_self d r0 W S R) in B. split; [exact B|exact C].
Qed.

Theorem C174_criteria_pairs_partial :
  forall d dat max_sdiff mn mx ks r0,
    wf_boundary (d_ocb d) -> wf_boundary (d_eab d) ->
    wf_crits (d_ocb d) ks -> wf_crits (d_eab d) ks ->
    0 <= d_max_delta d -> d_loaded d = true -> 0 <= max_sdiff ->
    d_rec d = Some r0 -> r0 < d_records d ->
    ~ (mn = None /\ mx = None /\ ks = []) ->
    time_sorted dat -> dat <> [] ->
    exists d1, set_good_ind d mn mx ks mn mx ks = Ok d1 /\
      (strictly_time_sorted (d_dtime d1) ->
       let tol := max_sdiff * 1000000 in
       let early := 0 < d_records d1 /\
         forall k, 0 <= k < d_records d1 -> tm (d_dtime d1) k < tm dat 0 - tol in
       (early /\ supermag_pairs_dual d dat max_sdiff mn mx ks = Err TypeError) \/
       (~ early /\ exists l, supermag_pairs_dual d dat max_sdiff mn mx ks = Ok l /\
          pairs_exactly (d_dtime d1) dat (fun k => 0 <= k < d_records d1) tol l)).
Proof.
  intros d dat ms mn mx ks r0 WO WE CO CE Hdel L Hms Hr0 Hr Hg SD Hd.
  destruct (set_good_ind_spec d mn mx ks mn mx ks WO WE CO CE Hdel L)
    as [d1 [A [O1 [E1 [M1 [L1 [W [HI [H1 _]]]]]]]]].
  exists d1. split; [exact A|]. intros SS tol early.
  assert (Hn : 0 < zlen dat) by (unfold zlen; destruct dat; [contradiction|cbn [length]; lia]).
  destruct (Z_lt_le_dec 0 (d_records d1)) as [Hpos|Hz].
  - assert (Hrdy : ready d1 mn mx ks d) by (split; [exact A|eauto]).
    pose proof (stuck_disjoint (d_records d1) (d_dtime d1) dat tol (all_pairs d1) 0
      ltac:(lia) Hn) as Hs.
    assert (Hde : disjoint_periods (d_dtime d1) dat (all_pairs d1) (d_records d1) 0 tol <-> early).
    { unfold disjoint_periods, early. split.
      - intros [[[k Hk] H]|[H _]]; [|lia]. split; [exact Hpos|]. intros j Hj.
        apply H, all_candidate, Hj.
      - intros [_ H]. left. split; [exists 0; apply all_candidate; lia|].
        intros k Hk. apply H, all_candidate, Hk. }
    destruct (reset_smag d d1 dat ms mn mx ks Hg L A H1 W L1 M1 O1 E1 SS SD Hms Hpos
      (Datatypes.S (length dat)) d 0 Hrdy ltac:(lia) ltac:(unfold zlen; lia) ltac:(intros; lia)) as [[B C]|[B [l [C D]]]].
    + left. split; [now apply Hde, Hs|exact C].
    + right. split; [intros X; now apply B, Hs, Hde|]. exists l. split; [exact C|].
      destruct D as [D1 D2]. split; [exact D1|]. intros i r. rewrite D2.
      rewrite (closest_ext _ _ _ (fun k => 0 <= k < d_records d1) i r (all_candidate d1)).
      reflexivity.
  - right. split; [intros [X _]; lia|]. exists []. split.
    + unfold supermag_pairs_dual. cbn [supermag_loop].
      assert (XC : (dual_cursor d <? d_records d) = true)
        by (unfold dual_cursor; rewrite Hr0; now apply Z.ltb_lt).
      rewrite XC, (proj2 (Z.ltb_lt _ _)) by exact Hn. cbn [andb].
      rewrite (match_dual_given d d1 dat 0 ms mn mx ks r0 Hg Hr0 Hr Hn A H1 W).
      rewrite (proj2 (Z.leb_le _ _)) by lia. cbn [bind].
      assert (XC1 : (dual_cursor d1 <? d_records d1) = false)
        by (unfold dual_cursor; rewrite H1; apply Z.ltb_ge; lia).
      rewrite XC1, andb_false_r. destruct (length dat); cbn [supermag_loop];
        rewrite XC1, andb_false_r; reflexivity.
    + split; [constructor|]. intros i r. split; [intros []|].
      intros [_ [_ [K _]]]. cbv beta in K. lia.
Qed.

(** Two stations at 90 s, none near the last time. *)
Example C174_case :
  exists d0, set_good_ind (ex_dfom ex_o ex_e 10) None None [] None None [] = Ok d0 /\
    supermag_pairs_dual d0 (map (fun s => s * usec) [10; 90; 90; 210; 900]) 60 None None []
    = Ok [(0, 0); (1, 1); (2, 1); (3, 2)] /\
    supermag_pairs_dual d0 (map (fun s => s * usec) [10; 90; 90; 310; 900]) 60
      (Some (Fin 3)) None [] = Ok [(1, 0); (2, 0); (3, 1)].
Proof. eexists. split; [vm_compute; reflexivity|]. split; vm_compute; reflexivity. Qed.

(** The failure of C10. *)
Theorem C174_early_refuted :
  exists d d0 dat, wf_boundary (d_ocb d) /\ wf_boundary (d_eab d) /\
    set_good_ind d None None [] None None [] = Ok d0 /\ 0 < d_records d0 /\
    supermag_pairs_dual d0 dat 60 None None [] = Err TypeError.
Proof.
  exists (ex_dfom ex_o ex_e 10). eexists. exists [900 * usec].
  split; [apply ex_fom_wf|]. split; [apply ex_fom_wf|]. split; [vm_compute; reflexivity|].
  split; [reflexivity|]. vm_compute. reflexivity.
Qed.

(** ** C175: samples of a pysat instrument and a dual boundary *)
(** [out] holds for every accepted row the values at the OCB and EAB records of the pair of [d1]
    that is closest among those of [usable], when it is near enough, else no value. *)
Definition converted_pairs {V} (conv : Z * Z -> Z -> V) (d1 : dual) (usable : Z -> Prop) (tol : Z)
  (rows : list (Z * (num * list num))) (accepted : num -> list num -> Prop) (out : list (option V)) : Prop :=
  length out = length rows /\
  forall s t lat vs, nth_error rows s = Some (t, (lat, vs)) ->
    (forall r io ie, accepted lat vs -> closest (d_dtime d1) (map fst rows) usable (Z.of_nat s) r ->
       within (d_dtime d1) (map fst rows) tol r (Z.of_nat s) ->
       nth_error (d_ocb_ind d1) (Z.to_nat r) = Some io -> nth_error (d_eab_ind d1) (Z.to_nat r) = Some ie ->
       nth_error out s = Some (Some (conv (io, ie) (Z.of_nat s)))) /\
    (~ accepted lat vs \/ (forall r, usable r -> ~ within (d_dtime d1) (map fst rows) tol r (Z.of_nat s)) ->
       nth_error out s = Some None).

Section Samples.
Context {V : Type} (conv : Z * Z -> Z -> V).
Variables (d : dual) (rows : list (Z * (num * list num))) (max_sdiff : Z).
Notation tol := (max_sdiff * 1000000).
Notation kept h := (map (fun r => pandas_keep (sign_of h) (snd r)) rows).

Lemma kept_row h s t lat vs : nth_error rows s = Some (t, (lat, vs)) ->
  nth_error (kept h) s = Some true <-> on h lat /\ some_value vs.
Proof.
  intros E. rewrite nth_error_map, E. cbn [option_map snd]. rewrite <- pandas_keep_spec.
  destruct (pandas_keep _ _); split; congruence.
Qed.

Lemma to_converted d1 usable h out :
  length out = length (map fst rows) ->
  (forall s, (s < length (map fst rows))%nat ->
    (forall r, nth_error (kept h) s = Some true -> closest (d_dtime d1) (map fst rows) usable (Z.of_nat s) r ->
       within (d_dtime d1) (map fst rows) tol r (Z.of_nat s) ->
       nth_error out s = Some (Some (conv (tm (d_ocb_ind d1) r, tm (d_eab_ind d1) r) (Z.of_nat s)))) /\
    (nth_error (kept h) s <> Some true \/ (forall r, usable r -> ~ within (d_dtime d1) (map fst rows) tol r (Z.of_nat s)) ->
       nth_error out s = Some None)) ->
  converted_pairs conv d1 usable tol rows (fun lat vs => on h lat /\ some_value vs) out.
Proof.
  intros L A. split; [rewrite map_length in L; exact L|]. intros s t lat vs E.
  destruct (A s) as [A1 A2]; [rewrite map_length; apply nth_error_Some; congruence|]. split.
  - intros r io ie Ac Cl Wi Eo Ee. apply tm_nth in Eo. apply tm_nth in Ee. rewrite <- Eo, <- Ee.
    apply A1; [apply (kept_row h s t lat vs E); exact Ac|exact Cl|exact Wi].
  - intros [H|H]; apply A2; [left|right; exact H]. intros X. apply H. apply (kept_row h s t lat vs E). exact X.
Qed.

(** The times given to the matching (433). *)
Definition sample_times h := flat_map (fun i => match py_get (map fst rows) i with Some t => [t] | None => [] end) (where_from 0 (kept h)).
Lemma kept_len h : length (kept h) = length (map fst rows).
Proof. now rewrite !map_length. Qed.

Lemma no_samples {C dt} mn mx ks fuel x h : sample_times h = [] ->
  dual_loop (sample_times h) max_sdiff mn mx ks fuel x 0 = Ok (map (named (d_ocb_ind d) (d_eab_ind d)) []) /\ pairs_exactly dt (sample_times h) C tol [].
Proof.
  intros E. rewrite E. split; [destruct fuel; reflexivity|]. split; [constructor|].
  intros i r. unfold zlen. cbn. split; [intros []|]. intros (A & _). lia.
Qed.

Theorem C175_samples_converted_partial h r0 :
  wf_dual d -> in_step d -> d_rec d = Some r0 -> -1 <= r0 < d_records d -> 0 < d_records d ->
  strictly_time_sorted (d_dtime d) -> time_sorted (map fst rows) -> 0 <= max_sdiff ->
  let usable := candidate (fun k => 0 <= k < d_records d) (d_records d) r0 in
  (exists out, pandas_dual conv false d (sign_of h) rows max_sdiff None None [] = Ok (Some out) /\
     converted_pairs conv d usable tol rows (fun lat vs => on h lat /\ some_value vs) out) \/
  (pandas_dual conv false d (sign_of h) rows max_sdiff None None [] = Err TypeError /\
   forall s t lat vs r, nth_error rows s = Some (t, (lat, vs)) -> on h lat -> some_value vs -> usable r ->
     ~ within (d_dtime d) (map fst rows) tol r (Z.of_nat s)).
Proof.
  intros W S R Hr Hp SS ST T0 usable. unfold pandas_dual.
  assert (NZ : d_records d <> 0) by lia.
  assert (FIN : forall l, dual_loop (sample_times h) max_sdiff None None [] (Datatypes.S (length (sample_times h))) d 0 = Ok (map (named (d_ocb_ind d) (d_eab_ind d)) l) ->
    pairs_exactly (d_dtime d) (sample_times h) usable tol l ->
    exists out, convert_dual conv false d (map fst rows) (kept h) max_sdiff None None [] = Ok (Some out) /\
      converted_pairs conv d usable tol rows (fun lat vs => on h lat /\ some_value vs) out).
  { intros l E P. destruct (convert_exact conv d (map fst rows) (kept h) max_sdiff None None [] (d_dtime d) (d_ocb_ind d) (d_eab_ind d) usable (kept_len h) NZ l E P)
      as (out & O1 & O2 & O3). exists out. split; [exact O1|]. now apply to_converted. }
  destruct (list_eq_dec Z.eq_dec (sample_times h) []) as [Ed|Nd].
  - left. destruct (@no_samples usable (d_dtime d) None None [] (Datatypes.S (length (sample_times h))) d h Ed) as [A B]. exact (FIN [] A B).
  - assert (SD : time_sorted (sample_times h)) by exact (dat_sorted (map fst rows) (kept h) 0 ST (kept_len h)).
    pose proof (loop_plain d (sample_times h) max_sdiff r0 (Datatypes.S (length (sample_times h))) 0 W SS SD T0 S R Hr Hp ltac:(lia)) as LP.
    change (vort_loop _ _ _ _ _ _ _ _) with (vort_pairs_dual d (sample_times h) max_sdiff None None []) in LP.
    destruct (vort_pairs_dual_spec d (sample_times h) max_sdiff W SS SD T0 Nd S r0 R Hr Hp) as [[D E]|[_ [l [E P]]]]; rewrite E in LP; cbn [bind] in LP.
    + right. destruct (convert_early conv d (map fst rows) (kept h) max_sdiff None None [] (d_dtime d) usable ST (kept_len h) NZ LP) as [A B].
      { destruct D as [[_ D]|[-> (j & Rj & Gj & Fj & D)]]; [left; exact D|]. right. intros k i Hk Hi. specialize (D i Hi).
        destruct Hk as [Hk _]. assert (j = 0) by (destruct (Z.eq_dec j 0) as [|N]; [assumption|exfalso; apply (Fj 0); [lia|unfold all_pairs; lia]]). subst j.
        assert (T : tm (d_dtime d) 0 <= tm (d_dtime d) k).
        { destruct (Z.eq_dec 0 k) as [->|N]; [lia|]. apply Z.lt_le_incl. apply SS; [lia|]. destruct W as [W _]. lia. }
        eapply Z.lt_le_trans; [exact D|]. unfold usec. lia. }
      split; [exact A|]. intros s t lat vs r Er O Sv. apply B. apply (kept_row h s t lat vs Er). split; assumption.
    + left. exact (FIN l LP P).
Qed.

(** With criteria: the pairs that meet them. *)
Theorem C175_criteria_partial mn mx ks h r0 :
  wf_boundary (d_ocb d) -> wf_boundary (d_eab d) ->
  wf_crits (d_ocb d) ks -> wf_crits (d_eab d) ks ->
  0 <= d_max_delta d -> d_loaded d = true -> 0 <= max_sdiff ->
  d_rec d = Some r0 -> r0 < d_records d -> d_records d <> 0 ->
  ~ (mn = None /\ mx = None /\ ks = []) -> time_sorted (map fst rows) ->
  exists d1, set_good_ind d mn mx ks mn mx ks = Ok d1 /\
    (forall io ie, In (io, ie) (combine (d_ocb_ind d1) (d_eab_ind d1)) ->
       pairable (d_ocb d) (d_eab d) mn mx mn mx ks ks (d_max_delta d * 1000000) io ie) /\
    (strictly_time_sorted (d_dtime d1) ->
     let usable k := 0 <= k < d_records d1 in
     (exists out, pandas_dual conv false d (sign_of h) rows max_sdiff mn mx ks = Ok (Some out) /\
        converted_pairs conv d1 usable tol rows (fun lat vs => on h lat /\ some_value vs) out) \/
     (pandas_dual conv false d (sign_of h) rows max_sdiff mn mx ks = Err TypeError /\
      forall s t lat vs r, nth_error rows s = Some (t, (lat, vs)) -> on h lat -> some_value vs -> usable r ->
        ~ within (d_dtime d1) (map fst rows) tol r (Z.of_nat s))).
Proof.
  intros WO WE CO CE Hdel L Hms Hr0 Hr NZ Hg ST.
  destruct (set_good_ind_spec d mn mx ks mn mx ks WO WE CO CE Hdel L)
    as [d1 [A [O1 [E1 [M1 [L1 [W [HI [H1 [_ [_ [_ [Hp _]]]]]]]]]]]]].
  exists d1. split; [exact A|]. split; [intros io ie H; exact (Hp (io, ie) H)|]. intros SS usable. unfold pandas_dual.
  assert (FIN : forall l, dual_loop (sample_times h) max_sdiff mn mx ks (Datatypes.S (length (sample_times h))) d 0 = Ok (map (named (d_ocb_ind d1) (d_eab_ind d1)) l) ->
    pairs_exactly (d_dtime d1) (sample_times h) usable tol l ->
    exists out, convert_dual conv false d (map fst rows) (kept h) max_sdiff mn mx ks = Ok (Some out) /\
      converted_pairs conv d1 usable tol rows (fun lat vs => on h lat /\ some_value vs) out).
  { intros l E P. destruct (convert_exact conv d (map fst rows) (kept h) max_sdiff mn mx ks (d_dtime d1) (d_ocb_ind d1) (d_eab_ind d1) usable (kept_len h) NZ l E P)
      as (out & X1 & X2 & X3). exists out. split; [exact X1|]. now apply to_converted. }
  destruct (list_eq_dec Z.eq_dec (sample_times h) []) as [Ed|Nd].
  - left. destruct (@no_samples usable (d_dtime d1) mn mx ks (Datatypes.S (length (sample_times h))) d h Ed) as [B C]. exact (FIN [] B C).
  - assert (SD : time_sorted (sample_times h)) by exact (dat_sorted (map fst rows) (kept h) 0 ST (kept_len h)).
    pose proof (loop_given d d1 (sample_times h) max_sdiff mn mx ks r0 (Datatypes.S (length (sample_times h))) 0 Hg L A H1 HI W L1 M1 O1 E1 SS SD Hms Hr0 Hr ltac:(lia)) as LP.
    change (vort_loop _ _ _ _ _ _ _ _) with (vort_pairs_dual d (sample_times h) max_sdiff mn mx ks) in LP.
    destruct (C172_criteria_select_pairs_partial d (sample_times h) max_sdiff mn mx ks r0 WO WE CO CE Hdel L Hms Hr0 Hr Hg SD Nd) as (d1' & A' & _ & Q).
    assert (d1' = d1) by congruence. subst d1'. destruct (Q SS) as [[D E]|[_ [l [E P]]]]; rewrite E in LP; cbn [bind] in LP.
    + right. destruct (convert_early conv d (map fst rows) (kept h) max_sdiff mn mx ks (d_dtime d1) usable ST (kept_len h) NZ LP) as [B C].
      { left. exact (proj2 D). }
      split; [exact B|]. intros s t lat vs r Er O Sv. apply C. apply (kept_row h s t lat vs Er). split; assumption.
    + left. exact (FIN l LP P).
Qed.
End Samples.

(** OCB record 3 and EAB record 1 are not used: no partner within 10 s. *)
Definition ex_o2 := [(0, 2); (100, 3); (200, 1); (250, 2); (300, 3)].
Definition ex_e2 := [(5, 3); (60, 3); (105, 3); (205, 3); (305, 4)].
Example C175_case :
  exists d0, set_good_ind (ex_dfom ex_o2 ex_e2 10) None None [] None None [] = Ok d0 /\
    pandas_dual (fun p s => (p, s)) false d0 (sign_of North)
      [(10 * usec, (Fin 80, [Fin 1])); (90 * usec, (Fin (-80), [Fin 1])); (210 * usec, (Fin 70, [Fin 2])); (310 * usec, (Fin 60, [Fin 3]))]
      60 None None []
    = Ok (Some [Some ((0, 0), 0); None; Some ((2, 3), 2); Some ((4, 4), 3)]) /\
    pandas_dual (fun p s => (p, s)) false d0 (sign_of North)
      [(10 * usec, (Fin 80, [Fin 1])); (90 * usec, (Fin (-80), [Fin 1])); (210 * usec, (Fin 70, [Fin 2])); (310 * usec, (Fin 60, [Fin 3]))]
      60 (Some (Fin 3)) None []
    = Ok (Some [None; None; None; Some ((4, 4), 3)]).
Proof. eexists. split; [vm_compute; reflexivity|]. split; vm_compute; reflexivity. Qed.

(** One number for the height: the default of the argument. *)
Theorem C175_single_height_refuted :
  exists d0, set_good_ind (ex_dfom ex_o2 ex_e2 10) None None [] None None [] = Ok d0 /\
    pandas_dual (fun p s => (p, s)) true d0 (sign_of North) [(10 * usec, (Fin 80, [Fin 1]))] 60 None None [] = Err IndexError.
Proof. eexists. split; [vm_compute; reflexivity|]. vm_compute. reflexivity. Qed.

(** ** C176: keyword arguments when the dual boundary is made from files *)
(** The keywords the documentation of DualBoundary lists. *)
Definition of_dual (k : str) : Prop := In k (map s2l
  ["eab_filename"; "ocb_filename"; "eab_instrument"; "ocb_instrument"; "hemisphere"; "eab_lat"; "ocb_lat"; "stime"; "etime";
   "eab_rfunc"; "eab_rfunc_kwargs"; "ocb_rfunc"; "ocb_rfunc_kwargs"; "eab"; "ocb"; "max_delta"]).
(** What is given when the user does not say. *)
Inductive by_default {A} (hemisphere stime etime instrument : A) : str -> A -> Prop :=
| bd_hemisphere : by_default hemisphere stime etime instrument (s2l "hemisphere") hemisphere
| bd_start : by_default hemisphere stime etime instrument (s2l "stime") stime
| bd_end : by_default hemisphere stime etime instrument (s2l "etime") etime
| bd_eab : by_default hemisphere stime etime instrument (s2l "eab_instrument") instrument
| bd_ocb : by_default hemisphere stime etime instrument (s2l "ocb_instrument") instrument.

Lemma params_spec k : k <> s2l "self" -> member k dual_params = true <-> of_dual k.
Proof.
  intros N. unfold member, dual_params, of_dual. rewrite existsb_exists. split.
  - intros (x & I & E). apply str_eqb_spec in E. subst x. cbn [map] in I. destruct I as [I|I]; [congruence|exact I].
  - intros I. exists k. split; [right; exact I|apply str_eqb_refl].
Qed.
Lemma has_lookup {A} k (d : list (str * A)) : has k d = match lookup k d with Some _ => true | None => false end.
Proof.
  unfold has, member. induction d as [|[k' v] d IH]; [reflexivity|]. cbn [map fst existsb lookup].
  destruct (str_eqb k k'); [reflexivity|exact IH].
Qed.
Lemma lookup_fold {A} k : forall (kwargs init : list (str * A)), NoDup (map fst kwargs) ->
  lookup k (fold_left (fun d kv => if member (fst kv) dual_params then setkey (fst kv) (snd kv) d else d) kwargs init) =
  match lookup k kwargs with Some v => if member k dual_params then Some v else lookup k init | None => lookup k init end.
Proof.
  induction kwargs as [|[k' v] kw IH]; intros init ND; [reflexivity|]. cbn [map fst] in ND. inversion ND as [|? ? Ni ND']; subst.
  cbn [fold_left fst snd]. rewrite IH by exact ND'. cbn [lookup].
  destruct (str_eqb k k') eqn:E.
  - apply str_eqb_spec in E. subst k'.
    assert (L : lookup k kw = None).
    { pose proof (has_lookup k kw) as H. destruct (lookup k kw); [|reflexivity]. exfalso. apply Ni. unfold has, member in H.
      apply existsb_exists in H. destruct H as (x & I & Ex). apply str_eqb_spec in Ex. now subst. }
    rewrite L. destruct (member k dual_params); [|reflexivity]. now rewrite lookup_setkey, str_eqb_refl.
  - assert (R : lookup k (if member k' dual_params then setkey k' v init else init) = lookup k init)
      by (destruct (member k' dual_params); [now rewrite lookup_setkey, E|reflexivity]).
    now rewrite R.
Qed.
Lemma lookup_filter {A} k (p : str -> bool) : forall l : list (str * A),
  lookup k (filter (fun kv => p (fst kv)) l) = if p k then lookup k l else None.
Proof.
  induction l as [|[k' v] l IH]; [destruct (p k); reflexivity|]. cbn [filter fst lookup].
  destruct (str_eqb k k') eqn:E.
  - apply str_eqb_spec in E. subst k'. destruct (p k) eqn:P; [cbn [lookup]; now rewrite str_eqb_refl|]. exact IH.
  - destruct (p k'); [cbn [lookup]; now rewrite E, IH|exact IH].
Qed.

Theorem C176_keywords_go_one_way : forall {A} (hemisphere stime etime instrument : A) kwargs k,
  NoDup (map fst kwargs) -> k <> s2l "self" ->
  let '(init, criteria) := dual_arguments hemisphere stime etime instrument kwargs in
  (forall v, lookup k kwargs = Some v -> of_dual k -> lookup k init = Some v /\ lookup k criteria = None) /\
  (forall v, lookup k kwargs = Some v -> ~ of_dual k -> lookup k init = None /\ lookup k criteria = Some v) /\
  (lookup k kwargs = None -> lookup k criteria = None /\
     forall v, lookup k init = Some v <-> by_default hemisphere stime etime instrument k v).
Proof.
  intros A he st et ins kw k ND NS. unfold dual_arguments.
  set (init0 := [(s2l "hemisphere", he); (s2l "stime", st); (s2l "etime", et)]).
  set (init1 := fold_left _ kw init0).
  pose proof (fun x => lookup_fold x kw init0 ND) as L1. fold init1 in L1.
  set (init2 := if has _ init1 then init1 else _).
  assert (L2 : forall x, lookup x init2 = match lookup x init1 with Some v => Some v | None => if str_eqb x "ocb_instrument" then Some ins else None end).
  { intros x. unfold init2. rewrite has_lookup. destruct (lookup (s2l "ocb_instrument") init1) eqn:E.
    - destruct (lookup x init1) eqn:Ex; [reflexivity|]. destruct (str_eqb x "ocb_instrument") eqn:Q; [|reflexivity]. apply str_eqb_spec in Q. subst x. congruence.
    - rewrite lookup_setkey. destruct (str_eqb x "ocb_instrument") eqn:Q; [|destruct (lookup x init1); reflexivity]. apply str_eqb_spec in Q. subst x. now rewrite E. }
  set (init3 := if has _ init2 then init2 else _).
  assert (L3 : forall x, lookup x init3 = match lookup x init2 with Some v => Some v | None => if str_eqb x "eab_instrument" then Some ins else None end).
  { intros x. unfold init3. rewrite has_lookup. destruct (lookup (s2l "eab_instrument") init2) eqn:E.
    - destruct (lookup x init2) eqn:Ex; [reflexivity|]. destruct (str_eqb x "eab_instrument") eqn:Q; [|reflexivity]. apply str_eqb_spec in Q. subst x. congruence.
    - rewrite lookup_setkey. destruct (str_eqb x "eab_instrument") eqn:Q; [|destruct (lookup x init2); reflexivity]. apply str_eqb_spec in Q. subst x. now rewrite E. }
  rewrite (lookup_filter k (fun x => negb (has x init1))), has_lookup, L3, L2, L1.
  assert (D0 : lookup k init0 <> None -> of_dual k).
  { unfold init0. cbn [lookup]. destruct (str_eqb k "hemisphere") eqn:Q1; [apply str_eqb_spec in Q1; subst; intros _; unfold of_dual; cbn; tauto|].
    destruct (str_eqb k "stime") eqn:Q2; [apply str_eqb_spec in Q2; subst; intros _; unfold of_dual; cbn; tauto|].
    destruct (str_eqb k "etime") eqn:Q3; [apply str_eqb_spec in Q3; subst; intros _; unfold of_dual; cbn; tauto|]. congruence. }
  pose proof (params_spec k NS) as PS.
  split; [|split].
  - intros v -> O. apply PS in O. rewrite O. cbn. split; reflexivity.
  - intros v -> O. assert (member k dual_params = false) as -> by (destruct (member k dual_params); [exfalso; apply O, PS; reflexivity|reflexivity]).
    assert (lookup k init0 = None) as -> by (destruct (lookup k init0); [exfalso; apply O, D0; congruence|reflexivity]).
    split; [|reflexivity].
    destruct (str_eqb k "ocb_instrument") eqn:Q; [apply str_eqb_spec in Q; subst; exfalso; apply O; unfold of_dual; cbn; tauto|].
    destruct (str_eqb k "eab_instrument") eqn:Q'; [apply str_eqb_spec in Q'; subst; exfalso; apply O; unfold of_dual; cbn; tauto|reflexivity].
  - intros ->. split; [destruct (negb _); reflexivity|]. intros v. unfold init0. cbn [lookup]. split.
    + destruct (str_eqb k "hemisphere") eqn:Q1; [apply str_eqb_spec in Q1; subst; intros [= ->]; constructor|].
      destruct (str_eqb k "stime") eqn:Q2; [apply str_eqb_spec in Q2; subst; intros [= ->]; constructor|].
      destruct (str_eqb k "etime") eqn:Q3; [apply str_eqb_spec in Q3; subst; intros [= ->]; constructor|].
      destruct (str_eqb k "ocb_instrument") eqn:Q4; [apply str_eqb_spec in Q4; subst; intros [= ->]; constructor|].
      destruct (str_eqb k "eab_instrument") eqn:Q5; [apply str_eqb_spec in Q5; subst; intros [= ->]; constructor|]. discriminate.
    + intros H. destruct H; reflexivity.
Qed.

(** One keyword of each kind, and one that replaces a default. *)
Example C176_case :
  dual_arguments 1 10 20 7 [(s2l "max_delta", 60); (s2l "fom", 5); (s2l "eab_instrument", 8)] =
  ([(s2l "hemisphere", 1); (s2l "stime", 10); (s2l "etime", 20); (s2l "max_delta", 60); (s2l "eab_instrument", 8); (s2l "ocb_instrument", 7)],
   [(s2l "fom", 5)]).
Proof. vm_compute. reflexivity. Qed.

Print Assumptions C174_default_pairs_partial.
Print Assumptions C174_criteria_pairs_partial.
Print Assumptions C174_early_refuted.
Print Assumptions C175_samples_converted_partial.
Print Assumptions C175_criteria_partial.
Print Assumptions C175_single_height_refuted.
Print Assumptions C176_keywords_go_one_way.
