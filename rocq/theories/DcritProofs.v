(** Proofs about selection criteria given together with a DualBoundary. *)
From Coq Require Import String ZArith QArith List Bool Lia Sorted.
From Verif Require Import PyBase CycleModel CycleSpec CycleProofs DriverModel DriverSpec
  DriverProofs DualModel DualSpec DualProofs.
Import ListNotations.
Open Scope string_scope.
Open Scope list_scope.
Open Scope Z_scope.

Lemma set_rec_twice b i j : set_rec_ind (set_rec_ind b i) j = set_rec_ind b j.
Proof. reflexivity. Qed.

(** The pairs that set_good_ind builds do not depend on any cursor nor on the
    pairs the object held before. *)
Lemma set_good_forget d d' omn omx oks emn emx eks :
  d_loaded d = true -> d_loaded d' = true -> d_max_delta d' = d_max_delta d ->
  same_data (d_ocb d) (d_ocb d') -> same_data (d_eab d) (d_eab d') ->
  set_good_ind d' omn omx oks emn emx eks = set_good_ind d omn omx oks emn emx eks.
Proof.
  intros L L' HM HO HE. apply same_data_eq in HO. apply same_data_eq in HE.
  unfold set_good_ind, retrieve_all_good_indices. rewrite L, L', HM. cbn [negb].
  rewrite HO, HE, !set_rec_twice.
  change (b_records (set_rec_ind (d_ocb d) (b_rec_ind (d_ocb d')))) with (b_records (d_ocb d)).
  change (b_records (set_rec_ind (d_eab d) (b_rec_ind (d_eab d')))) with (b_records (d_eab d)).
  destruct (retrieve_loop _ _ _ _ _ _) as [g|]; [|reflexivity]. cbn [bind].
  cbn [b_dtime set_rec_ind].
  destruct (pick (b_dtime (d_ocb d)) g) as [odat|]; [|reflexivity]. cbn [bind].
  destruct (pair_loop _ _ _ _ _ _ _ _ _) as [ps|]; [|reflexivity]. cbn [bind].
  destruct (pick (b_dtime (d_ocb d)) (map fst ps)) as [dt|]; [|reflexivity]. cbn [bind].
  unfold dual_set_rec_ind. cbn [d_records d_ocb_ind d_eab_ind].
  change (0 <? 0) with false. cbv iota.
  destruct (zlen ps <=? 0); [reflexivity|].
  destruct (getE (map fst ps) 0); [|reflexivity]. cbn [bind].
  destruct (getE (map snd ps) 0); reflexivity.
Qed.

Lemma dual_at_same d r : wf_dual d ->
  d_loaded (dual_at d r) = d_loaded d /\ d_max_delta (dual_at d r) = d_max_delta d /\
  same_data (d_ocb d) (d_ocb (dual_at d r)) /\ same_data (d_eab d) (d_eab (dual_at d r)).
Proof.
  intros [W1 [W2 W3]]. unfold dual_at, dual_set_rec_ind.
  assert (HS : forall b i, same_data b (set_rec_ind b i))
    by (intros b i; unfold same_data; cbn; auto 10).
  destruct (r <? 0) eqn:E; [cbn; now repeat split; try apply HS|].
  destruct (d_records d <=? r) eqn:E2; [cbn; now repeat split; try apply HS|]. zify_bool.
  rewrite !getE_tm by lia. cbn. now repeat split; try apply HS.
Qed.

(** Criteria were given (cycle_boundary.py:133-134). *)
Definition given (mn mx : option num) (ks : list crit) : Prop :=
  ~ (mn = None /\ mx = None /\ ks = []).

Lemma given_custom mn mx ks : given mn mx ks ->
  match mn, mx, ks with None, None, [] => false | _, _, _ => true end = true.
Proof.
  intros H. destruct mn, mx, ks; try reflexivity. exfalso. apply H. auto.
Qed.

(** One call with criteria. *)
Lemma match_dual_given d d1 dat i max_tol mn mx ks r0 :
  given mn mx ks -> d_rec d = Some r0 -> r0 < d_records d -> i < zlen dat ->
  set_good_ind d mn mx ks mn mx ks = Ok d1 -> d_rec d1 = Some 0 -> wf_dual d1 ->
  match_data_dual d dat i max_tol mn mx ks
  = if d_records d1 <=? 0 then Ok (Some i, d1)
    else bind (match_core (d_records d1) (d_dtime d1) (dual_cycle (d_records d1)) dat
                (max_tol * usec) 0 i) (fun x => Ok (fst x, dual_at d1 (snd x))).
Proof.
  intros Hg Hr Hlt Hi Hs H1 W. unfold match_data_dual, dual_rec_ind.
  rewrite (proj2 (Z.leb_gt _ _)) by lia. rewrite Hr. cbn [bind].
  rewrite (proj2 (Z.leb_gt _ _)) by lia. rewrite (given_custom _ _ _ Hg). cbv zeta.
  rewrite Hs. cbn [bind]. rewrite H1. cbn [bind andb].
  destruct (d_records d1 <=? 0); [reflexivity|].
  destruct (match_core _ _ _ _ _ _ _) as [[o r]|]; [|reflexivity]. cbn [bind fst snd].
  now rewrite dual_set_total by exact W.
Qed.

Section Reset.
  Variable d d1 : dual.
  Variable dat : list Z.
  Variable max_tol : Z.
  Variable mn mx : option num.
  Variable ks : list crit.
  Hypothesis Hg : given mn mx ks.
  Hypothesis Hld : d_loaded d = true.
  Hypothesis Hs : set_good_ind d mn mx ks mn mx ks = Ok d1.
  Hypothesis H1 : d_rec d1 = Some 0.
  Hypothesis HI : in_step d1.
  Hypothesis W : wf_dual d1.
  Hypothesis L1 : d_loaded d1 = true.
  Hypothesis M1 : d_max_delta d1 = d_max_delta d.
  Hypothesis O1 : same_data (d_ocb d) (d_ocb d1).
  Hypothesis E1 : same_data (d_eab d) (d_eab d1).
  Hypothesis SS : strictly_time_sorted (d_dtime d1).
  Hypothesis SD : time_sorted dat.
  Hypothesis Ht : 0 <= max_tol.
  Hypothesis Hpos : 0 < d_records d1.
  Notation N := (d_records d1).
  Notation mtd := (fun d i => match_data_dual d dat i max_tol mn mx ks).
  Notation core := (match_core N (d_dtime d1) (dual_cycle N) dat (max_tol * usec) 0).

  Lemma again r : set_good_ind (dual_at d1 r) mn mx ks mn mx ks = Ok d1.
  Proof.
    destruct (dual_at_same d1 r W) as [A [B [C D]]]. rewrite <- Hs.
    apply set_good_forget; try congruence.
    - eapply same_data_trans; eassumption.
    - eapply same_data_trans; eassumption.
  Qed.

  (** An object on which the criteria give [d1]. *)
  Definition ready (x : dual) : Prop :=
    set_good_ind x mn mx ks mn mx ks = Ok d1 /\
    exists r, d_rec x = Some r /\ r < d_records x.

  Lemma ready_call x i : ready x -> i < zlen dat ->
    mtd x i = bind (core i) (fun y => Ok (fst y, dual_at d1 (snd y))).
  Proof.
    intros [A [r [B C]]] Hi. rewrite (match_dual_given x d1 dat i max_tol mn mx ks r) by assumption.
    now rewrite (proj2 (Z.leb_gt _ _)) by lia.
  Qed.

  Lemma ready_at r : r < N -> ready (dual_at d1 r).
  Proof.
    intros H. split; [apply again|]. destruct (dual_at_fields d1 r W) as [A [_ B]].
    exists r. rewrite A, B. auto.
  Qed.

  Notation stk i := (i < zlen dat /\ 0 < N /\
    none_case N (d_dtime d1) dat (max_tol * usec) (all_pairs d1) 0 i).
  Notation cov := (covers N (d_dtime d1) dat (max_tol * usec) (all_pairs d1) 0).

  (** [call] of DriverProofs with the cursor put back to 0. *)
  Lemma call0 i : 0 <= i < zlen dat ->
    (exists r, core i = Ok (None, r) /\ stk i) \/
    (exists i1 r1, core i = Ok (Some i1, r1) /\ ~ stk i /\ -1 <= r1 /\
       ((i <= i1 < zlen dat /\ 0 <= r1 < N /\ 0 <= r1 /\
         within (d_dtime d1) dat (max_tol * usec) r1 i1 /\
         closest (d_dtime d1) dat (candidate (all_pairs d1) N 0) i1 r1 /\
         forall i' k, i <= i' < i1 -> candidate (all_pairs d1) N 0 k ->
           ~ within (d_dtime d1) dat (max_tol * usec) k i') \/
        ((zlen dat <= i1 \/ N <= r1) /\
         forall i' k, i <= i' < zlen dat -> candidate (all_pairs d1) N 0 k ->
           ~ within (d_dtime d1) dat (max_tol * usec) k i'))).
  Proof.
    intros Hi. assert (Htol : 0 <= max_tol * usec) by (unfold usec; lia).
    assert (X := call N (d_dtime d1) (dual_cycle N) dat (max_tol * usec) (all_pairs d1) Z
      (fun r i => match_core N (d_dtime d1) (dual_cycle N) dat (max_tol * usec) r i)
      (fun r => r) ltac:(symmetry; apply W) (dual_cycle_good d1 Hpos) (fun k H => H) SS SD Htol).
    cbn beta in X.
    specialize (X ltac:(intros rec j _ _; destruct (match_core _ _ _ _ _ rec j) as [[? ?]|]; reflexivity)
      0 i ltac:(lia) Hi).
    exact X.
  Qed.

  Lemma reset_loop fuel x i : ready x -> 0 <= i -> (Z.to_nat (zlen dat - i) < fuel)%nat ->
    (stk i /\ vort_loop dual d_records dual_cursor mtd dat fuel x i = Err TypeError) \/
    (~ stk i /\ exists l, vort_loop dual d_records dual_cursor mtd dat fuel x i = Ok l /\ cov i l).
  Proof.
    revert x i. induction fuel as [|f IH]; intros x i Hx Hi Hf; [lia|].
    cbn [vort_loop]. pose proof Hx as [_ [r [X1 X2]]]. 
    assert (XC : (dual_cursor x <? d_records x) = true)
      by (unfold dual_cursor; rewrite X1; now apply Z.ltb_lt).
    rewrite XC, andb_true_r.
    destruct (i <? zlen dat) eqn:E; zify_bool.
    2:{ right. split; [intros [A _]; lia|]. exists []. split; [reflexivity|]. apply covers_past. lia. }
    rewrite (ready_call x i Hx E).
    destruct (call0 i ltac:(lia)) as [[r1 [R1 R2]]|[i1 [r1 [R1 [R2 [R3 R4]]]]]];
      rewrite R1; cbn [bind fst snd].
    { left. split; [exact R2|reflexivity]. }
    right. split; [exact R2|].
    destruct (dual_at_fields d1 r1 W) as [F1 [_ F3]].
    assert (FC : dual_cursor (dual_at d1 r1) = r1) by (unfold dual_cursor; now rewrite F3).
    rewrite FC, F1.
    destruct ((i1 <? zlen dat) && (r1 <? N)) eqn:E2.
    - apply andb_true_iff in E2. destruct E2 as [E3 E4]. zify_bool.
      destruct R4 as [[A1 [A2 [A3 [A4 [A5 A6]]]]]|[[A1|A1] _]]; [|lia|lia].
      destruct (IH (dual_at d1 r1) (i1 + 1) ltac:(apply ready_at; lia) ltac:(lia) ltac:(lia))
        as [[[_ [_ [[B1 _]|[B1 _]]]] _]|[_ [l [B1 [B2 B3]]]]]; [lia|lia|].
      rewrite B1. cbn [bind]. eexists. split; [reflexivity|]. split.
      + cbn [map fst]. constructor; [exact B2|]. apply Forall_forall.
        intros k Hk. apply in_map_fst in Hk. destruct Hk as [r' Hk]. apply B3 in Hk. lia.
      + intros k r'. cbn [In]. rewrite B3. split.
        * intros [K|[K1 [K2 K3]]].
          -- injection K as <- <-. split; [lia|]. split; assumption.
          -- split; [lia|]. split; assumption.
        * intros [K1 [K2 K3]]. destruct (Z.lt_trichotomy k i1) as [L|[L|L]].
          -- exfalso. apply (A6 k r' ltac:(lia)); [apply K3|exact K2].
          -- subst k. left. f_equal. eapply closest_unique; eassumption.
          -- right. split; [lia|]. split; assumption.
    - apply andb_false_iff in E2. destruct R4 as [[A1 [A2 _]]|[A1 A2]].
      { destruct E2 as [E2|E2]; zify_bool; lia. }
      exists []. split; [|now apply covers_nil].
      destruct f as [|f]; cbn [vort_loop]; rewrite ?FC, ?F1;
        (replace ((i1 <? zlen dat) && (r1 <? N)) with false; [reflexivity|]);
        symmetry; apply andb_false_iff; exact E2.
  Qed.
End Reset.

(** ** Histories of calls *)

(** The component boundaries hold the same data. *)
Definition same_boundaries (d d' : dual) : Prop :=
  same_data (d_ocb d) (d_ocb d') /\ same_data (d_eab d) (d_eab d') /\
  d_loaded d' = d_loaded d /\ d_max_delta d' = d_max_delta d.

Lemma same_boundaries_refl d : same_boundaries d d.
Proof. unfold same_boundaries, same_data. auto 20. Qed.

Lemma same_boundaries_trans a b c :
  same_boundaries a b -> same_boundaries b c -> same_boundaries a c.
Proof.
  intros [A1 [A2 [A3 A4]]] [B1 [B2 [B3 B4]]]. split; [eapply same_data_trans; eassumption|].
  split; [eapply same_data_trans; eassumption|]. split; congruence.
Qed.

Lemma set_rec_same b i : same_data b (set_rec_ind b i).
Proof. unfold same_data. cbn. auto 10. Qed.

Lemma dual_set_same d r d' : dual_set_rec_ind d r = Ok d' -> same_boundaries d d'.
Proof.
  unfold dual_set_rec_ind. intros H.
  assert (X : exists i j q, d' = dual_put d (set_rec_ind (d_ocb d) i) (set_rec_ind (d_eab d) j) q).
  { destruct (r <? 0); [injection H as <-; eauto|].
    destruct (d_records d <=? r); [injection H as <-; eauto|].
    destruct (getE (d_ocb_ind d) r); [|discriminate]. cbn [bind] in H.
    destruct (getE (d_eab_ind d) r); [|discriminate]. cbn [bind] in H.
    injection H as <-. eauto. }
  destruct X as [i [j [q ->]]]. unfold same_boundaries, dual_put.
  cbn [d_ocb d_eab d_loaded d_max_delta].
  split; [apply set_rec_same|]. split; [apply set_rec_same|]. auto.
Qed.

Lemma set_good_same d omn omx oks emn emx eks d' :
  set_good_ind d omn omx oks emn emx eks = Ok d' -> same_boundaries d d'.
Proof.
  unfold set_good_ind. destruct (d_loaded d) eqn:L; cbn [negb]; intros H.
  2:{ injection H as <-. unfold same_boundaries, same_data. cbn. rewrite L. auto 20. }
  unfold retrieve_all_good_indices in H.
  destruct (retrieve_loop _ _ _ _ _ _) as [g|]; [|discriminate]. cbn [bind] in H.
  destruct (pick _ g) as [odat|]; [|discriminate]. cbn [bind] in H.
  destruct (pair_loop _ _ _ _ _ _ _ _ _) as [ps|]; [|discriminate]. cbn [bind] in H.
  destruct (pick _ (map fst ps)) as [dt|]; [|discriminate]. cbn [bind] in H.
  apply dual_set_same in H. destruct H as [A [B [C D]]].
  cbn [d_ocb d_eab d_loaded d_max_delta] in *.
  split; [eapply same_data_trans; [apply set_rec_same|exact A]|].
  split; [exact B|]. split; [congruence|exact D].
Qed.

Lemma match_dual_same d dat i tol mn mx ks o d' :
  match_data_dual d dat i tol mn mx ks = Ok (o, d') -> same_boundaries d d'.
Proof.
  unfold match_data_dual. intros H.
  destruct (zlen dat <=? i). { injection H as <- <-. apply same_boundaries_refl. }
  destruct (dual_rec_ind d) as [r0|]; [|discriminate]. cbn [bind] in H.
  destruct (d_records d <=? r0). { injection H as <- <-. apply same_boundaries_refl. }
  cbv zeta in H. destruct (match mn with Some _ => _ | None => _ end) in H.
  - destruct (set_good_ind d mn mx ks mn mx ks) as [d1|] eqn:E1; [|discriminate].
    apply set_good_same in E1. cbn [bind] in H.
    destruct (dual_rec_ind d1) as [r1|]; [|discriminate]. cbn [bind andb] in H.
    destruct (d_records d1 <=? r1). { injection H as <- <-. exact E1. }
    destruct (match_core _ _ _ _ _ _ _) as [[o' r]|]; [|discriminate]. cbn [bind] in H.
    destruct (dual_set_rec_ind d1 r) as [d2|] eqn:E2; [|discriminate]. cbn [bind] in H.
    injection H as <- <-. apply dual_set_same in E2. eapply same_boundaries_trans; eassumption.
  - cbn [bind andb] in H. destruct (dual_rec_ind d) as [r1|]; [|discriminate]. cbn [bind] in H.
    destruct (match_core _ _ _ _ _ _ _) as [[o' r]|]; [|discriminate]. cbn [bind] in H.
    destruct (dual_set_rec_ind d r) as [d2|] eqn:E2; [|discriminate]. cbn [bind] in H.
    injection H as <- <-. now apply dual_set_same in E2.
Qed.

(** Operations a caller may have applied to the object before. *)
Inductive dual_op :=
  | Match (dat : list Z) (i tol : Z) (mn mx : option num) (ks : list crit)
  | Pair (omn omx : option num) (oks : list crit) (emn emx : option num) (eks : list crit)
  | Cursor (r : Z)
  | Next.

Definition apply_op (d : dual) (op : dual_op) : res dual :=
  match op with
  | Match dat i tol mn mx ks => '(_, d') <- match_data_dual d dat i tol mn mx ks ;; Ok d'
  | Pair omn omx oks emn emx eks => set_good_ind d omn omx oks emn emx eks
  | Cursor r => dual_set_rec_ind d r
  | Next => dual_get_next_good_ind d
  end.

Fixpoint apply_ops (d : dual) (ops : list dual_op) : res dual :=
  match ops with
  | [] => Ok d
  | op :: t => d' <- apply_op d op ;; apply_ops d' t
  end.

Lemma apply_ops_same ops d d' : apply_ops d ops = Ok d' -> same_boundaries d d'.
Proof.
  revert d. induction ops as [|op ops IH]; intros d H.
  { injection H as <-. apply same_boundaries_refl. }
  cbn [apply_ops] in H. destruct (apply_op d op) as [d1|] eqn:E; [|discriminate].
  cbn [bind] in H. apply IH in H. eapply same_boundaries_trans; [|exact H].
  destruct op as [dat i tol mn mx ks|omn omx oks emn emx eks|r|]; cbn [apply_op] in E.
  - destruct (match_data_dual _ _ _ _ _ _ _) as [[o d2]|] eqn:E1; [|discriminate].
    cbn [bind] in E. injection E as <-. eapply match_dual_same, E1.
  - eapply set_good_same, E.
  - eapply dual_set_same, E.
  - unfold dual_get_next_good_ind in E. destruct (0 <? d_records d).
    2:{ injection E as <-. apply same_boundaries_refl. }
    destruct (dual_rec_ind d) as [r|]; [|discriminate]. cbn [bind] in E.
    destruct (r <? d_records d); [|injection E as <-; apply same_boundaries_refl].
    eapply dual_set_same, E.
Qed.

Lemma match_dual_forget d d' dat i tol mn mx ks r r' :
  given mn mx ks -> d_loaded d = true -> same_boundaries d d' ->
  d_rec d = Some r -> r < d_records d -> d_rec d' = Some r' -> r' < d_records d' ->
  i < zlen dat ->
  match_data_dual d' dat i tol mn mx ks = match_data_dual d dat i tol mn mx ks.
Proof.
  intros G L [A [B [C D]]] H1 H2 H3 H4 H5. unfold match_data_dual, dual_rec_ind.
  rewrite (proj2 (Z.leb_gt _ _)) by lia. rewrite H1, H3. cbn [bind].
  rewrite (proj2 (Z.leb_gt (d_records d') r')) by lia.
  rewrite (proj2 (Z.leb_gt (d_records d) r)) by lia.
  rewrite (given_custom _ _ _ G). cbv zeta.
  now rewrite (set_good_forget d d' mn mx ks mn mx ks) by congruence.
Qed.
