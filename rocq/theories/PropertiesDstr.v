(** C177, C178: the texts of DualBoundary objects after any use. *)
From Coq Require Import ZArith QArith List Bool Lia Sorted.
From Verif Require Import PyBase CycleModel CycleSpec CycleProofs DriverModel DualModel DualSpec DualProofs DcritProofs PropertiesDcrit DorderProofs DstrModel.
Import ListNotations.
Open Scope Z_scope.

(** Criteria of an operation refer to unknown names or to arrays. *)
Definition op_wf (o e : boundary) (op : dual_op) : Prop :=
  match op with
  | Match _ _ _ _ _ ks => wf_crits o ks /\ wf_crits e ks
  | Pair _ _ oks _ _ eks => wf_crits o oks /\ wf_crits e eks
  | _ => True
  end.

(** The pairs are of the two boundaries, in the order of time. *)
Definition of_records (d : dual) : Prop :=
  wf_dual d /\ d_dtime d = map (tm (b_dtime (d_ocb d))) (d_ocb_ind d) /\
  StronglySorted Z.le (d_dtime d) /\ Forall (fun i => 0 <= i < zlen (b_dtime (d_ocb d))) (d_ocb_ind d).

Section History.
Variables (o e : boundary) (delta : Z).
Hypotheses (WO : wf_boundary o) (WE : wf_boundary e) (D0 : 0 <= delta).
Definition uses (d : dual) : Prop := same_data o (d_ocb d) /\ same_data e (d_eab d) /\ d_max_delta d = delta.

Lemma wf_same b b' : same_data b b' -> wf_boundary b -> wf_boundary b'.
Proof. intros H W. apply same_data_eq in H. rewrite H. exact W. Qed.
Lemma crits_same b b' ks : same_data b b' -> wf_crits b ks -> wf_crits b' ks.
Proof. intros H W. apply same_data_eq in H. rewrite H. exact W. Qed.

Lemma uses_same d d' : uses d -> same_boundaries d d' -> uses d'.
Proof.
  intros (A & B & C) (A' & B' & _ & C'). split; [eapply same_data_trans; eassumption|]. split; [eapply same_data_trans; eassumption|]. congruence.
Qed.

Lemma pairing_records d omn omx oks emn emx eks d' : uses d -> wf_crits o oks -> wf_crits e eks ->
  set_good_ind d omn omx oks emn emx eks = Ok d' -> of_records d'.
Proof.
  intros (A & B & C) CO CE E. destruct (d_loaded d) eqn:L.
  - destruct (set_good_ind_spec d omn omx oks emn emx eks (wf_same _ _ A WO) (wf_same _ _ B WE) (crits_same _ _ _ A CO) (crits_same _ _ _ B CE) ltac:(lia) L)
      as (d1 & E1 & S1 & S2 & _ & _ & W & _ & _ & T & S & _ & P & _).
    assert (d1 = d') by congruence. subst d1. split; [exact W|]. destruct S1 as (_ & S1 & _). rewrite S1. split; [exact T|].
    split; [eapply pairs_in_order; [|exact E]; lia|].
    apply Forall_forall. intros i Hi. destruct (In_nth _ _ 0 Hi) as (n & Hn & En).
    destruct W as (_ & W1 & W2). assert (LL : length (d_ocb_ind d') = length (d_eab_ind d')) by (unfold zlen in *; lia).
    assert (HP : In (i, nth n (d_eab_ind d') 0) (combine (d_ocb_ind d') (d_eab_ind d'))).
    { rewrite <- En, <- combine_nth by exact LL. apply nth_In. rewrite combine_length. lia. }
    apply P in HP. destruct HP as [G _]. cbn [fst] in G. apply good_in in G. destruct (wf_same _ _ A WO) as (_ & W3 & _). lia.
  - unfold set_good_ind in E. rewrite L in E. cbn [negb] in E. injection E as <-. unfold of_records, wf_dual, zlen. cbn. repeat split; constructor.
Qed.

Lemma cursor_records d r d' : of_records d -> dual_set_rec_ind d r = Ok d' -> of_records d'.
Proof.
  intros (W & T & S & F) H. unfold dual_set_rec_ind in H.
  assert (X : exists i j q, d' = dual_put d (set_rec_ind (d_ocb d) i) (set_rec_ind (d_eab d) j) q).
  { destruct (r <? 0); [injection H as <-; eauto|].
    destruct (d_records d <=? r); [injection H as <-; eauto|].
    destruct (getE (d_ocb_ind d) r); [|discriminate]. cbn [bind] in H.
    destruct (getE (d_eab_ind d) r); [|discriminate]. cbn [bind] in H.
    injection H as <-. eauto. }
  destruct X as (i & j & q & ->). unfold of_records, wf_dual, dual_put in *. cbn. auto.
Qed.

Lemma op_records d op d' : uses d -> of_records d -> op_wf o e op -> apply_op d op = Ok d' -> of_records d'.
Proof.
  intros U R Ow E. destruct op as [dat i tol mn mx ks|omn omx oks emn emx eks|r|]; cbn [apply_op op_wf] in *.
  - destruct (match_data_dual d dat i tol mn mx ks) as [[q d2]|] eqn:H; [|discriminate]. cbn [bind] in E. injection E as <-.
    unfold match_data_dual in H. destruct (zlen dat <=? i). { injection H as _ <-. exact R. }
    destruct (dual_rec_ind d) as [r0|]; [|discriminate]. cbn [bind] in H.
    destruct (d_records d <=? r0). { injection H as _ <-. exact R. }
    cbv zeta in H.
    match type of H with bind ?x _ = _ => assert (K : forall d1, x = Ok d1 -> of_records d1) end.
    { intros d1. destruct (match mn with Some _ => _ | None => _ end); [|intros X; injection X as <-; exact R].
      intros X. exact (pairing_records d mn mx ks mn mx ks d1 U (proj1 Ow) (proj2 Ow) X). }
    match type of H with bind ?x _ = _ => destruct x as [d1|]; [|discriminate] end. specialize (K d1 eq_refl). cbn [bind] in H.
    destruct (dual_rec_ind d1) as [r1|]; [|discriminate]. cbn [bind] in H.
    destruct (_ && _). { injection H as _ <-. exact K. }
    destruct (match_core _ _ _ _ _ _ _) as [[o' r]|]; [|discriminate]. cbn [bind] in H.
    destruct (dual_set_rec_ind d1 r) as [d3|] eqn:E2; [|discriminate]. cbn [bind] in H. injection H as _ <-. exact (cursor_records _ _ _ K E2).
  - exact (pairing_records d omn omx oks emn emx eks d' U (proj1 Ow) (proj2 Ow) E).
  - exact (cursor_records _ _ _ R E).
  - unfold dual_get_next_good_ind in E. destruct (0 <? d_records d); [|injection E as <-; exact R].
    destruct (dual_rec_ind d) as [r|]; [|discriminate]. cbn [bind] in E.
    destruct (r <? d_records d); [|injection E as <-; exact R]. exact (cursor_records _ _ _ R E).
Qed.

Lemma ops_records ops : forall d d', uses d -> of_records d -> Forall (op_wf o e) ops -> apply_ops d ops = Ok d' -> uses d' /\ of_records d'.
Proof.
  induction ops as [|op ops IH]; intros d d' U R F E; [injection E as <-; auto|]. inversion F; subst.
  cbn [apply_ops] in E. destruct (apply_op d op) as [d1|] eqn:E1; [|discriminate]. cbn [bind] in E.
  apply (IH d1); [|exact (op_records d op d1 U R H1 E1)|assumption|exact E].
  eapply uses_same; [exact U|]. apply (apply_ops_same [op]). cbn [apply_ops]. now rewrite E1.
Qed.
End History.

Lemma getE_last_tm l : l <> [] -> getE l (-1) = Ok (tm l (zlen l - 1)).
Proof.
  intros N. unfold getE, py_get, tm, zlen in *. assert (0 < length l)%nat by (destruct l; [congruence|cbn; lia]).
  change (0 <=? -1) with false. change (-1 <? 0) with true. cbn [andb]. rewrite (proj2 (Z.leb_le _ _)) by lia. cbn [andb].
  replace (Z.of_nat (length l) + -1) with (Z.of_nat (length l) - 1) by lia.
  rewrite (nth_error_nth' l 0) by lia. reflexivity.
Qed.

(** ** C177 *)
(** Pairs are in the order of time, also when the records of the boundaries are not. *)
Theorem C177_pairs_ordered : forall d omn omx oks emn emx eks d', 0 <= d_max_delta d ->
  set_good_ind d omn omx oks emn emx eks = Ok d' -> StronglySorted Z.le (d_dtime d').
Proof. exact pairs_in_order. Qed.
Example C177_unordered_case :
  exists d, set_good_ind (ex_dfom [(200, 3); (100, 3); (300, 3); (290, 3); (400, 3)] [(203, 3); (98, 3); (305, 3); (395, 3); (100, 3)] 10) None None [] None None [] = Ok d /\
    d_dtime d = [200 * usec; 300 * usec; 400 * usec].
Proof. eexists. split; [vm_compute; reflexivity|]. reflexivity. Qed.

(** After any use of a dual boundary its text gives the number of pairs, the times of the earliest
    and the latest of them, the time difference, the text of the EAB and then that of the OCB. *)
Theorem C177_text : forall {L} (eab ocb : list L) e o loaded delta d0 ops d,
  wf_boundary o -> wf_boundary e -> dual_made e o loaded delta = Ok d0 -> Forall (op_wf o e) ops -> apply_ops d0 ops = Ok d ->
  exists line, dual_str (Ok eab) (Ok ocb) d = Ok ([DTitle; line; DDelta delta; DBlank] ++ map DOf eab ++ map DOf ocb) /\
    length (d_ocb_ind d) = length (d_eab_ind d) /\
    (d_ocb_ind d = [] -> line = DNone 0) /\
    (d_ocb_ind d <> [] -> exists t0 t1, line = DPairs (Z.of_nat (length (d_ocb_ind d))) t0 t1 /\
       (exists i, In i (d_ocb_ind d) /\ nth_error (b_dtime o) (Z.to_nat i) = Some t0) /\
       (exists i, In i (d_ocb_ind d) /\ nth_error (b_dtime o) (Z.to_nat i) = Some t1) /\
       (forall i t, In i (d_ocb_ind d) -> nth_error (b_dtime o) (Z.to_nat i) = Some t -> t0 <= t <= t1)).
Proof.
  intros L eab ocb e o ld delta d0 ops d WO WE M F A. unfold dual_made in M.
  destruct (delta <=? 0) eqn:Dl; [discriminate|]. apply Z.leb_gt in Dl.
  set (di := mkD o e ld delta 0 [] [] [] None) in M.
  assert (U0 : uses o e delta di) by (split; [apply same_data_refl|split; [apply same_data_refl|reflexivity]]).
  assert (R0 : of_records d0) by (refine (pairing_records o e delta WO WE _ di None None [] None None [] d0 U0 _ _ M); [lia| |]; intros c []).
  assert (U1 : uses o e delta d0) by (eapply uses_same; [exact U0|]; eapply set_good_same; exact M).
  destruct (ops_records o e delta WO WE ltac:(lia) ops d0 d U1 R0 F A) as [(SO & SE & SD) ((W1 & W2 & W3) & T & S & B)].
  destruct SO as (_ & SO & _). rewrite SO in T, B.
  assert (Ln : d_records d = Z.of_nat (length (d_ocb_ind d))) by (unfold zlen in *; lia).
  assert (NT : forall i, In i (d_ocb_ind d) -> nth_error (b_dtime o) (Z.to_nat i) = Some (tm (b_dtime o) i)).
  { intros i Hi. rewrite Forall_forall in B. specialize (B i Hi). unfold tm. apply nth_error_nth'. unfold zlen in B. lia. }
  unfold dual_str. rewrite SD. destruct (d_ocb_ind d) as [|i0 l] eqn:EI.
  - cbn in Ln. rewrite Ln. cbn. exists (DNone 0). split; [reflexivity|]. split; [unfold zlen in *; cbn in *; lia|]. split; [reflexivity|congruence].
  - assert (Z.eqb (d_records d) 0 = false) as -> by (apply Z.eqb_neq; cbn [length] in Ln; lia).
    assert (ND : d_dtime d <> []) by (rewrite T; discriminate).
    rewrite (getE_last_tm _ ND). assert (getE (d_dtime d) 0 = Ok (tm (b_dtime o) i0)) as -> by (rewrite T; reflexivity). cbn [bind].
    assert (LD : zlen (d_dtime d) = zlen (i0 :: l)) by (rewrite T; unfold zlen; now rewrite map_length).
    set (n := length l). assert (LE : tm (d_dtime d) (zlen (d_dtime d) - 1) = tm (b_dtime o) (nth n (i0 :: l) 0)).
    { rewrite LD, T. unfold tm at 1. replace (Z.to_nat (zlen (i0 :: l) - 1)) with n by (unfold zlen; cbn [length]; lia).
      rewrite (nth_indep _ 0 (tm (b_dtime o) 0)) by (rewrite map_length; cbn; lia). now rewrite map_nth. }
    assert (HL : In (nth n (i0 :: l) 0) (i0 :: l)) by (apply nth_In; cbn; lia).
    eexists. split; [reflexivity|]. split; [unfold zlen in *; lia|]. split; [congruence|]. intros _.
    exists (tm (b_dtime o) i0), (tm (d_dtime d) (zlen (d_dtime d) - 1)). rewrite <- Ln. split; [reflexivity|].
    split; [exists i0; split; [now left|apply NT; now left]|]. rewrite LE.
    split; [exists (nth n (i0 :: l) 0); split; [exact HL|apply NT, HL]|].
    intros i t Hi Et. rewrite (NT i Hi) in Et. injection Et as <-. rewrite T in S. clear - S Hi.
    assert (G : forall (q : list Z) a, StronglySorted Z.le q -> (a < length q)%nat -> nth 0 q 0 <= nth a q 0 <= nth (length q - 1) q 0).
    { clear. intros q a S. revert a. induction S as [|x q S IH F]; intros a H; [cbn in H; lia|]. cbn [length] in *. replace (Datatypes.S (length q) - 1)%nat with (length q) by lia.
      rewrite Forall_forall in F. split.
      - destruct a; cbn [nth]; [lia|]. apply F, nth_In. lia.
      - destruct q as [|y q]; [destruct a; cbn in *; lia|]. change (nth (length (y :: q)) (x :: y :: q) 0) with (nth (length q) (y :: q) 0). cbn [length] in *.
        destruct a; [apply F; change (nth 0 (x :: y :: q) 0) with x; apply (nth_In (y :: q) 0); cbn [length]; lia|]. specialize (IH a ltac:(lia)).
        replace (Datatypes.S (length q) - 1)%nat with (length q) in IH by lia. apply IH. }
    destruct (In_nth _ _ 0 Hi) as (a & Ha & <-). specialize (G (map (tm (b_dtime o)) (i0 :: l)) a S ltac:(rewrite map_length; exact Ha)).
    rewrite map_length in G. cbn [length] in G, Ha. replace (Datatypes.S (length l) - 1)%nat with n in G by (unfold n; lia).
    rewrite !(nth_indep (map _ _) 0 (tm (b_dtime o) 0)) in G by (rewrite map_length; cbn [length]; unfold n; lia). rewrite !map_nth in G. exact G.
Qed.

Example C177_case :
  exists d0 d, dual_made (d_eab (ex_dfom ex_o ex_e 10)) (d_ocb (ex_dfom ex_o ex_e 10)) true 10 = Ok d0 /\
    apply_ops d0 [Next; Match [90 * usec] 0 60 (Some (Fin 3)) None []] = Ok d /\
    dual_str (Ok [1]) (Ok [2; 3]) d0 = Ok [DTitle; DPairs 4 0 (300 * usec); DDelta 10; DBlank; DOf 1; DOf 2; DOf 3] /\
    dual_str (Ok [1]) (Ok [2; 3]) d = Ok [DTitle; DPairs 2 (100 * usec) (300 * usec); DDelta 10; DBlank; DOf 1; DOf 2; DOf 3].
Proof.
  eexists. eexists. split; [vm_compute; reflexivity|]. split; [vm_compute; reflexivity|]. split; vm_compute; reflexivity.
Qed.

(** ** C178 *)
Theorem C178_evaluates_partial : forall e o delta d0 ops d,
  dual_made e o true delta = Ok d0 -> apply_ops d0 ops = Ok d -> dual_eval d = Ok d0.
Proof.
  intros e o delta d0 ops d M A. unfold dual_eval, dual_made in *. destruct (delta <=? 0) eqn:Dl; [discriminate|].
  pose proof (set_good_same _ _ _ _ _ _ _ _ M) as S0. pose proof (same_boundaries_trans _ _ _ S0 (apply_ops_same _ _ _ A)) as (SO & SE & SL & SD).
  cbn [d_ocb d_eab d_loaded d_max_delta] in *. rewrite SL, SD, Dl. rewrite <- M. apply set_good_forget; cbn; auto.
Qed.
(** Without times there are no pairs and no record. *)
Theorem C178_unloaded : forall e o delta d0 ops d,
  dual_made e o false delta = Ok d0 -> apply_ops d0 ops = Ok d ->
  exists d1, dual_eval d = Ok d1 /\ d_records d1 = 0 /\ d_records d0 = 0 /\ d_rec d1 = None /\ d_rec d0 = None.
Proof.
  intros e o delta d0 ops d M A. unfold dual_eval, dual_made in *. destruct (delta <=? 0) eqn:Dl; [discriminate|].
  pose proof (set_good_same _ _ _ _ _ _ _ _ M) as S0. pose proof (same_boundaries_trans _ _ _ S0 (apply_ops_same _ _ _ A)) as (SO & SE & SL & SD).
  cbn [d_ocb d_eab d_loaded d_max_delta] in *. rewrite SL, SD, Dl. unfold set_good_ind in *. cbn [negb d_loaded d_rec] in *. injection M as <-.
  eexists. split; [reflexivity|]. cbn. auto.
Qed.
(** The criteria and the cursor are not part of the text. *)
Theorem C178_criteria_refuted : exists e o d0 d d1, wf_boundary o /\ wf_boundary e /\ dual_made e o true 10 = Ok d0 /\
  apply_ops d0 [Pair (Some (Fin 3)) None [] None None []; Next] = Ok d /\ dual_eval d = Ok d1 /\
  d_ocb_ind d1 <> d_ocb_ind d /\ d_rec d1 <> d_rec d.
Proof.
  exists (d_eab (ex_dfom ex_o ex_e 10)), (d_ocb (ex_dfom ex_o ex_e 10)). eexists. eexists. eexists.
  split; [apply ex_fom_wf|]. split; [apply ex_fom_wf|]. split; [vm_compute; reflexivity|]. split; [vm_compute; reflexivity|]. split; [vm_compute; reflexivity|].
  split; vm_compute; discriminate.
Qed.

(** ** When pair times differ *)
(** The times of the pairs differ, as C09, C172, C174 and C175 ask, when the EABs meeting the
    criteria are more than twice the largest difference apart and no two OCBs share a time. *)
Theorem C172_pair_times_differ : forall d omn omx oks emn emx eks d1,
  wf_boundary (d_ocb d) -> wf_boundary (d_eab d) -> wf_crits (d_ocb d) oks -> wf_crits (d_eab d) eks ->
  0 <= d_max_delta d -> d_loaded d = true -> set_good_ind d omn omx oks emn emx eks = Ok d1 ->
  (forall i j, good_record (d_eab d) emn emx eks i -> good_record (d_eab d) emn emx eks j -> i <> j ->
     2 * (d_max_delta d * 1000000) < Z.abs (tm (b_dtime (d_eab d)) i - tm (b_dtime (d_eab d)) j)) ->
  NoDup (b_dtime (d_ocb d)) -> strictly_time_sorted (d_dtime d1).
Proof.
  intros d omn omx oks emn emx eks d1 WO WE CO CE D0 L E SP ND.
  destruct (set_good_ind_spec d omn omx oks emn emx eks WO WE CO CE D0 L) as (d2 & E2 & _ & _ & _ & _ & (W1 & W2 & W3) & _ & _ & T & _ & _ & P & SO & _).
  assert (d2 = d1) by congruence. subst d2. specialize (SO SP). pose proof (pairs_in_order _ _ _ _ _ _ _ _ D0 E) as S.
  assert (GI : forall (q : list Z) (R : Z -> Z -> Prop) a b, StronglySorted R q -> 0 <= a < b -> b < zlen q -> R (tm q a) (tm q b)).
  { clear. intros q R a b S Ha Hb. unfold tm, zlen in *. assert (G : forall m n, (m < n < length q)%nat -> R (nth m q 0) (nth n q 0)).
    { clear Ha Hb a b. induction S as [|x q S IH F]; intros m n H; [cbn in H; lia|]. destruct n; [lia|]. rewrite Forall_forall in F. destruct m; cbn [nth].
      - apply F, nth_In. cbn in H. lia.
      - apply IH. cbn in H. lia. }
    apply G. lia. }
  assert (LD : zlen (d_dtime d1) = zlen (d_ocb_ind d1)) by lia.
  intros a b Ha Hb. pose proof (GI _ Z.le a b S Ha Hb) as Q1. pose proof (GI _ Z.lt a b SO Ha ltac:(lia)) as Q2. cbn beta in Q1, Q2.
  assert (TM : forall k, 0 <= k < zlen (d_dtime d1) -> tm (d_dtime d1) k = tm (b_dtime (d_ocb d)) (tm (d_ocb_ind d1) k)).
  { intros k Hk. rewrite T at 1. unfold tm at 1. rewrite (nth_indep _ 0 (tm (b_dtime (d_ocb d)) 0)) by (rewrite map_length; unfold zlen in *; lia). apply map_nth. }
  assert (RG : forall k, 0 <= k < zlen (d_dtime d1) -> 0 <= tm (d_ocb_ind d1) k < zlen (b_dtime (d_ocb d))).
  { intros k Hk. assert (LL : length (d_ocb_ind d1) = length (d_eab_ind d1)) by (unfold zlen in *; lia).
    assert (HP : In (tm (d_ocb_ind d1) k, tm (d_eab_ind d1) k) (combine (d_ocb_ind d1) (d_eab_ind d1))).
    { unfold tm. rewrite <- combine_nth by exact LL. apply nth_In. rewrite combine_length. unfold zlen in *. lia. }
    apply P in HP. destruct HP as [G _]. cbn [fst] in G. apply good_in in G. destruct WO as (_ & W & _). lia. }
  enough (tm (d_dtime d1) a <> tm (d_dtime d1) b) by lia. rewrite (TM a), (TM b) by lia. intros X.
  pose proof (RG a ltac:(lia)) as Ra. pose proof (RG b ltac:(lia)) as Rb.
  rewrite (NoDup_nth _ 0) in ND. apply (ND (Z.to_nat (tm (d_ocb_ind d1) a)) (Z.to_nat (tm (d_ocb_ind d1) b)) ltac:(unfold zlen in Ra; lia) ltac:(unfold zlen in Rb; lia)) in X. lia.
Qed.

Example C172_differ_case : let d := ex_dfom ex_o ex_e 10 in
  (forall i j, good_record (d_eab d) None None [] i -> good_record (d_eab d) None None [] j -> i <> j ->
     2 * (d_max_delta d * 1000000) < Z.abs (tm (b_dtime (d_eab d)) i - tm (b_dtime (d_eab d)) j)) /\ NoDup (b_dtime (d_ocb d)).
Proof.
  cbv zeta. split.
  - intros i j Hi Hj N. apply good_in in Hi. apply good_in in Hj. change (b_records (d_eab (ex_dfom ex_o ex_e 10))) with 4 in Hi, Hj.
    assert (A : i = 0 \/ i = 1 \/ i = 2 \/ i = 3) by lia. assert (B : j = 0 \/ j = 1 \/ j = 2 \/ j = 3) by lia.
    destruct A as [-> |[-> |[-> | ->]]]; destruct B as [-> |[-> |[-> | ->]]]; try congruence; vm_compute; reflexivity.
  - change (b_dtime (d_ocb (ex_dfom ex_o ex_e 10))) with [0; 100000000; 200000000; 300000000]. repeat constructor; cbn; lia.
Qed.

Print Assumptions C172_pair_times_differ.
Print Assumptions C177_pairs_ordered.
Print Assumptions C177_text.
Print Assumptions C178_evaluates_partial.
Print Assumptions C178_unloaded.
Print Assumptions C178_criteria_refuted.
