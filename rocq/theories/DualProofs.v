(** Proofs about paired boundaries. *)
From Coq Require Import String ZArith QArith List Bool Lia Sorted.
From Verif Require Import PyBase CycleModel CycleSpec CycleProofs DriverModel DriverSpec
  DriverProofs DualModel DualSpec.
Import ListNotations.
Open Scope string_scope.
Open Scope list_scope.
Open Scope Z_scope.

Lemma tm_nth l i x : nth_error l (Z.to_nat i) = Some x -> tm l i = x.
Proof. intros H. unfold tm. now apply nth_error_nth. Qed.

Lemma nth_tm l i : 0 <= i < zlen l -> nth_error l (Z.to_nat i) = Some (tm l i).
Proof.
  intros H. unfold tm. apply nth_error_nth'. unfold zlen in H. lia.
Qed.

Lemma pick_spec l idx :
  (forall i, In i idx -> 0 <= i < zlen l) -> pick l idx = Ok (map (tm l) idx).
Proof.
  induction idx as [|i t IH]; intros H; [reflexivity|]. cbn [pick map].
  rewrite getE_tm by (apply H; now left). cbn [bind].
  rewrite IH by (intros j Hj; apply H; now right). reflexivity.
Qed.

Lemma tm_map l idx i : 0 <= i < zlen idx -> tm (map (tm l) idx) i = tm l (tm idx i).
Proof.
  intros H. apply tm_nth. rewrite nth_error_map, nth_tm by exact H. reflexivity.
Qed.

Lemma sorted_tm_lt l : StronglySorted Z.lt l ->
  forall i j, 0 <= i < j -> j < zlen l -> tm l i < tm l j.
Proof.
  induction 1 as [|a l H IH F]; intros i j Hi Hj.
  - unfold zlen in Hj. simpl in Hj. lia.
  - unfold zlen in Hj. cbn [length] in Hj.
    destruct (Z.eq_dec i 0) as [->|Ni].
    + unfold tm at 1. cbn [Z.to_nat nth].
      replace (tm (a :: l) j) with (tm l (j - 1)).
      * rewrite Forall_forall in F. apply F. unfold tm. apply nth_In. lia.
      * unfold tm. replace (Z.to_nat j) with (S (Z.to_nat (j - 1))) by lia. reflexivity.
    + unfold tm. replace (Z.to_nat i) with (S (Z.to_nat (i - 1))) by lia.
      replace (Z.to_nat j) with (S (Z.to_nat (j - 1))) by lia. cbn [nth].
      apply IH; unfold zlen; lia.
Qed.

Lemma strong_map_le (f : Z -> Z) (l : list Z) (P : Z -> Prop) :
  (forall x y, P x -> P y -> x <= y -> f x <= f y) -> Forall P l ->
  StronglySorted Z.le l -> StronglySorted Z.le (map f l).
Proof.
  intros Hf HP. induction 1 as [|a l H IH F]; [constructor|]. inversion HP; subst.
  cbn [map]. constructor; [now apply IH|]. rewrite Forall_forall in *.
  intros y Hy. apply in_map_iff in Hy. destruct Hy as [x [<- Hx]]. apply Hf; auto.
Qed.

Lemma same_data_eq b b' : same_data b b' -> b' = set_rec_ind b (b_rec_ind b').
Proof.
  destruct b, b'. unfold same_data, set_rec_ind. cbn.
  intros [-> [-> [-> [-> [-> ->]]]]]. reflexivity.
Qed.

Section Pairing.
  Variable e0 : boundary.
  Variable mn mx : option num.
  Variable ks : list crit.
  Variable odat good_ocb : list Z.
  Variable delta : Z.
  Hypothesis W : wf_boundary e0.
  Hypothesis WC : wf_crits e0 ks.
  Hypothesis HL : zlen odat = zlen good_ocb.
  Hypothesis Hd : 0 <= delta.
  Notation N := (b_records e0).
  Notation G := (good_record e0 mn mx ks).
  Notation win := (within (b_dtime e0) odat (delta * usec)).

  Definition cursor_ok (rec : Z) : Prop := rec = -1 \/ N <= rec \/ G rec.
  Definition to_pair (p : Z * Z) : Z * Z := (tm good_ocb (fst p), snd p).

  Definition apart : Prop :=
    (forall i j, G i -> G j -> i <> j ->
       2 * (delta * usec) < Z.abs (tm (b_dtime e0) i - tm (b_dtime e0) j)) /\
    (forall i j, 0 <= i < zlen odat -> 0 <= j < zlen odat -> i <> j ->
       2 * (delta * usec) < Z.abs (tm odat i - tm odat j)).

  Lemma pair_loop_spec fuel rec i :
    -1 <= rec -> 0 <= i -> cursor_ok rec ->
    (Z.to_nat (N - rec) < fuel)%nat ->
    exists l, pair_loop fuel (set_rec_ind e0 rec) odat good_ocb i delta mn mx ks
                = Ok (map to_pair l) /\
      StronglySorted Z.le (map fst l) /\ StronglySorted Z.lt (map snd l) /\
      (forall p, In p l -> i <= fst p < zlen odat /\ rec <= snd p /\ G (snd p) /\
                 win (snd p) (fst p)) /\
      (apart -> strictly_time_sorted (b_dtime e0) -> time_sorted odat ->
       forall io ie, In (io, ie) l <->
         i <= io < zlen odat /\ rec <= ie /\ G ie /\ win ie io).
  Proof.
    revert rec i. induction fuel as [|f IH]; intros rec i Hr Hi Hc Hf; [lia|].
    cbn [pair_loop]. cbn [b_rec_ind b_records set_rec_ind].
    destruct (rec <? N) eqn:E; zify_bool.
    2:{ exists []. split; [reflexivity|]. split; [constructor|]. split; [constructor|].
        split; [intros p []|]. intros _ _ _ io ie. split; [intros []|].
        intros [_ [A [B _]]]. apply good_in in B. lia. }
    assert (Hnil : forall (x : res (list (Z * Z))), x = Ok [] ->
      (strictly_time_sorted (b_dtime e0) -> time_sorted odat ->
        forall io ie, i <= io < zlen odat -> rec <= ie -> G ie -> ~ win ie io) ->
      exists l, x = Ok (map to_pair l) /\
      StronglySorted Z.le (map fst l) /\ StronglySorted Z.lt (map snd l) /\
      (forall p, In p l -> i <= fst p < zlen odat /\ rec <= snd p /\ G (snd p) /\
                 win (snd p) (fst p)) /\
      (apart -> strictly_time_sorted (b_dtime e0) -> time_sorted odat ->
       forall io ie, In (io, ie) l <->
         i <= io < zlen odat /\ rec <= ie /\ G ie /\ win ie io)).
    { intros x -> Hn. exists []. split; [reflexivity|]. split; [constructor|].
      split; [constructor|]. split; [intros p []|].
      intros _ S1 S2 io ie. split; [intros []|]. intros [A [B [C D]]].
      exact (Hn S1 S2 io ie A B C D). }
    assert (Hcand : forall k, rec <= k -> G k -> candidate G N rec k).
    { intros k K1 K2. split; [now apply good_in in K2|].
      destruct (Z.eq_dec k rec); [now left|right; split; [lia|exact K2]]. }
    destruct (Z_le_gt_dec (zlen odat) i) as [L|L].
    { unfold match_data_ocb. rewrite (proj2 (Z.leb_le _ _) L). cbn [bind].
      rewrite HL in L. rewrite (proj2 (Z.ltb_ge _ _) L). cbn [andb].
      cbn [b_rec_ind b_records set_rec_ind]. rewrite (proj2 (Z.ltb_lt _ _) E).
      destruct (get_next_spec (set_rec_ind e0 rec) mn mx ks (wf_set e0 rec W) WC Hr)
        as [b' [-> _]]. cbn [bind]. apply Hnil; [reflexivity|].
      intros _ _ io ie H. lia. }
    destruct (match_data_spec (set_rec_ind e0 rec) odat i delta mn mx ks)
      as [o [r [R1 [R2 [R3 _]]]]]; try assumption; try (cbn [b_rec_ind b_records set_rec_ind]; lia).
    rewrite R1. cbn [bind]. cbn [b_rec_ind b_records b_dtime set_rec_ind] in *.
    change (good_record (set_rec_ind e0 rec) mn mx ks) with G in *.
    assert (Hrr : rec <= r).
    { destruct R2 as [[j [_ [_ [_ [Q _]]]]]|[Q _]]; exact Q. }
    assert (Hcyc : exists e2, get_next_good_ocb_ind (set_rec_ind (set_rec_ind e0 rec) r) mn mx ks
              = Ok (set_rec_ind e0 e2) /\ next_good G N r e2).
    { destruct (get_next_spec (set_rec_ind e0 r) mn mx ks (wf_set e0 r W) WC) as [b' [J1 [J2 J3]]].
      { cbn [b_rec_ind set_rec_ind]. lia. }
      exists (b_rec_ind b'). split; [|exact J3].
      change (set_rec_ind (set_rec_ind e0 rec) r) with (set_rec_ind e0 r). rewrite J1.
      f_equal. apply same_data_eq in J2. rewrite J2. reflexivity. }
    destruct Hcyc as [r2 [Cy1 Cy2]]. pose proof (next_good_gt _ _ _ _ Cy2) as Hr2.
    assert (Hnone : strictly_time_sorted (b_dtime e0) -> time_sorted odat ->
      (o = None \/ N <= r \/ exists i1, o = Some i1 /\ zlen odat <= i1) ->
      forall io ie, i <= io < zlen odat -> rec <= ie -> G ie -> ~ win ie io).
    { intros S1 S2 Ho io ie H1 H2 H3 H4.
      assert (S1' : time_sorted (b_dtime e0)).
      { intros a c A1 A2. destruct (Z.eq_dec a c) as [->|]; [lia|].
        enough (tm (b_dtime e0) a < tm (b_dtime e0) c) by lia. apply S1; lia. }
      destruct (R3 S1' S2) as [[j [J1 [J2 [J3 _]]]]|[_ J2]].
      - destruct Ho as [Ho|[Ho|[i1 [Ho Ho2]]]]; [congruence|lia|].
        rewrite J1 in Ho. injection Ho as <-. lia.
      - apply (J2 io ie H1 (Hcand ie H2 H3) H4). }
    destruct o as [i1|].
    2:{ rewrite Cy1. cbn [bind]. apply Hnil; [destruct (r <? N); reflexivity|].
        intros S1 S2. apply Hnone; auto. }
    destruct ((i1 <? zlen good_ocb) && (r <? N)) eqn:E3.
    - apply andb_true_iff in E3. destruct E3 as [E3 E4]. zify_bool.
      destruct R2 as [[j [J1 [J2 [J3 [J4 J5]]]]]|[J1 [J2|[j [J2 [J3 J4]]]]]];
        [|discriminate|injection J2 as <-; lia].
      injection J1 as <-.
      assert (Gr : G r).
      { destruct J3 as [J0 [->|[_ J3]]]; [|exact J3].
        destruct Hc as [Hc|[Hc|Hc]]; [lia|lia|exact Hc]. }
      rewrite getE_tm by lia. cbn [bind]. rewrite Cy1. cbn [bind].
      destruct (IH r2 i1 ltac:(lia) ltac:(lia)) as [l [B1 [B2 [B3 [B4 B5]]]]].
      { destruct Cy2 as [[_ [Cy2 _]]|[Cy2 _]]; [right; right; exact Cy2|right; left; lia]. }
      { lia. }
      rewrite B1. cbn [bind]. exists ((i1, r) :: l).
      split; [reflexivity|]. split.
      { cbn [map fst]. constructor; [exact B2|]. apply Forall_forall. intros x Hx.
        apply in_map_iff in Hx. destruct Hx as [p [<- Hp]]. apply B4 in Hp. lia. }
      split.
      { cbn [map snd]. constructor; [exact B3|]. apply Forall_forall. intros x Hx.
        apply in_map_iff in Hx. destruct Hx as [p [<- Hp]]. apply B4 in Hp. lia. }
      split.
      { intros p [<-|Hp]; cbn [fst snd].
        - split; [lia|]. split; [lia|]. split; [exact Gr|exact J5].
        - apply B4 in Hp. destruct Hp as [P1 [P2 [P3 P4]]]. split; [lia|]. split; [lia|].
          split; assumption. }
      intros [Ap1 Ap2] S1 S2 io ie. cbn [In].
      rewrite (B5 (conj Ap1 Ap2) S1 S2). split.
      + intros [K|[K1 [K2 [K3 K4]]]].
        * injection K as <- <-. split; [lia|]. split; [lia|]. split; [exact Gr|exact J5].
        * split; [lia|]. split; [lia|]. split; assumption.
      + intros [K1 [K2 [K3 K4]]].
        assert (S1' : time_sorted (b_dtime e0)).
        { intros a c A1 A2. destruct (Z.eq_dec a c) as [->|]; [lia|].
          enough (tm (b_dtime e0) a < tm (b_dtime e0) c) by lia. apply S1; lia. }
        assert (Hio : i1 <= io).
        { destruct (R3 S1' S2) as [[j [Q1 [Q2 [Q3 [Q4 _]]]]]|[_ Q2]].
          - injection Q1 as <-. destruct (Z_le_gt_dec i1 io) as [|Lt]; [assumption|].
            exfalso. apply (Q4 io ie ltac:(lia) (Hcand ie K2 K3) K4).
          - exfalso. apply (Q2 io ie K1 (Hcand ie K2 K3) K4). }
        pose proof (good_in _ _ _ _ _ K3) as Hie. pose proof (good_in _ _ _ _ _ Gr) as Hrn.
        destruct (Z.eq_dec ie r) as [->|Ne].
        * left. f_equal. destruct (Z.eq_dec i1 io) as [|Nio]; [assumption|].
          specialize (Ap2 i1 io ltac:(lia) ltac:(lia) Nio).
          unfold within in J5, K4. lia.
        * right. split; [lia|]. split; [|split; assumption].
          specialize (Ap1 ie r K3 Gr Ne).
          destruct (Z_lt_ge_dec ie r) as [Lt|Ge].
          { exfalso. assert (tm (b_dtime e0) ie < tm (b_dtime e0) r).
            { apply S1; [lia|]. destruct W as [_ [W2 _]]. lia. }
            assert (tm odat i1 <= tm odat io) by (apply S2; lia).
            unfold within in J5, K4. lia. }
          { destruct Cy2 as [[C1 [C2 C3]]|[C1 C2]].
            - destruct (Z_lt_ge_dec ie r2) as [Lt|]; [|lia]. exfalso. apply (C3 ie); [lia|exact K3].
            - exfalso. apply (C2 ie); [lia|exact K3]. }
    - rewrite Cy1. cbn [bind]. apply Hnil; [destruct (r <? N); reflexivity|].
      intros S1 S2. apply Hnone; auto. right.
      apply andb_false_iff in E3. destruct E3 as [E3|E3]; zify_bool; [|left; lia].
      right. exists i1. split; [reflexivity|lia].
  Qed.
End Pairing.

Lemma dual_set_ok d r :
  wf_dual d -> r <= d_records d -> exists d', dual_set_rec_ind d r = Ok d' /\
    same_pairs d d' /\ in_step d' /\ d_rec d' = Some r.
Proof.
  intros [W1 [W2 W3]] Hr. unfold dual_set_rec_ind.
  destruct (r <? 0) eqn:E; zify_bool.
  - eexists. split; [reflexivity|]. split.
    { unfold same_pairs. cbn. repeat split; reflexivity. }
    split; [|reflexivity]. exists r. cbn. split; [reflexivity|]. split; [exact Hr|].
    left. auto.
  - destruct (d_records d <=? r) eqn:E2; zify_bool.
    + eexists. split; [reflexivity|]. split.
      { unfold same_pairs. cbn. repeat split; reflexivity. }
      split; [|reflexivity]. exists r. cbn. split; [reflexivity|]. split; [exact Hr|].
      right. right. repeat split; lia.
    + rewrite !getE_tm by lia. cbn [bind]. eexists. split; [reflexivity|]. split.
      { unfold same_pairs. cbn. repeat split; reflexivity. }
      split; [|reflexivity]. exists r. cbn. split; [reflexivity|]. split; [exact Hr|].
      right. left. split; [lia|]. rewrite !nth_tm by lia. split; reflexivity.
Qed.

Lemma wf_same_pairs d d' : same_pairs d d' -> wf_dual d -> wf_dual d'.
Proof.
  intros [_ [_ [_ [_ [A [B [C D]]]]]]] [W1 [W2 W3]]. unfold wf_dual.
  rewrite A, B, C, D. auto.
Qed.

Lemma same_pairs_refl d : same_pairs d d.
Proof. unfold same_pairs, same_data. auto 20. Qed.

Lemma same_data_trans a b c : same_data a b -> same_data b c -> same_data a c.
Proof. unfold same_data. intuition congruence. Qed.

Lemma same_pairs_trans a b c : same_pairs a b -> same_pairs b c -> same_pairs a c.
Proof.
  intros [A1 [A2 A3]] [B1 [B2 B3]]. unfold same_pairs.
  split; [eapply same_data_trans; eauto|]. split; [eapply same_data_trans; eauto|].
  intuition congruence.
Qed.

Lemma dual_next_ok d r :
  wf_dual d -> in_step d -> d_rec d = Some r ->
  exists d', dual_get_next_good_ind d = Ok d' /\ same_pairs d d' /\ in_step d' /\
    d_rec d' = Some (if (r <? d_records d) && (0 <? d_records d) then r + 1 else r).
Proof.
  intros W S Hr. unfold dual_get_next_good_ind, dual_rec_ind. rewrite Hr. cbn [bind].
  destruct (0 <? d_records d) eqn:E0; destruct (r <? d_records d) eqn:E1; zify_bool; cbn [andb];
    try (exists d; split; [reflexivity|]; split; [apply same_pairs_refl|]; split; assumption).
  destruct (dual_set_ok d (r + 1) W ltac:(lia)) as [d' [A [B [C D]]]].
  exists d'. auto.
Qed.

Lemma cycle_n_spec n d r :
  wf_dual d -> in_step d -> d_rec d = Some r -> 0 <= r ->
  exists d', cycle_n n d = Ok d' /\ same_pairs d d' /\ in_step d' /\
    d_rec d' = Some (Z.min (r + Z.of_nat n) (d_records d)).
Proof.
  revert d r. induction n as [|n IH]; intros d r W S Hr H0; cbn [cycle_n].
  - exists d. split; [reflexivity|]. split; [apply same_pairs_refl|]. split; [exact S|].
    destruct S as [r' [S1 [S2 _]]]. rewrite Hr in S1. injection S1 as <-.
    rewrite Hr. f_equal. lia.
  - assert (Hle : r <= d_records d).
    { destruct S as [r' [S1 [S2 _]]]. rewrite Hr in S1. injection S1 as <-. exact S2. }
    destruct (dual_next_ok d r W S Hr) as [d1 [A [B [C D]]]]. rewrite A. cbn [bind].
    assert (R1 : d_records d1 = d_records d) by apply B.
    destruct (IH d1 _ (wf_same_pairs _ _ B W) C D) as [d2 [A2 [B2 [C2 D2]]]].
    { destruct ((r <? d_records d) && (0 <? d_records d)); lia. }
    exists d2. split; [exact A2|]. split; [eapply same_pairs_trans; eauto|].
    split; [exact C2|]. rewrite D2, R1. f_equal.
    destruct (r <? d_records d) eqn:E1; destruct (0 <? d_records d) eqn:E0; zify_bool;
      cbn [andb]; lia.
Qed.

Lemma zlen_map {A B} (f : A -> B) l : zlen (map f l) = zlen l.
Proof. unfold zlen. now rewrite map_length. Qed.

Lemma set_good_ind_spec d omn omx oks emn emx eks :
  wf_boundary (d_ocb d) -> wf_boundary (d_eab d) ->
  wf_crits (d_ocb d) oks -> wf_crits (d_eab d) eks ->
  0 <= d_max_delta d -> d_loaded d = true ->
  exists d', set_good_ind d omn omx oks emn emx eks = Ok d' /\
    same_data (d_ocb d) (d_ocb d') /\ same_data (d_eab d) (d_eab d') /\
    d_max_delta d' = d_max_delta d /\ d_loaded d' = true /\
    wf_dual d' /\ in_step d' /\ d_rec d' = Some 0 /\
    d_dtime d' = map (tm (b_dtime (d_ocb d))) (d_ocb_ind d') /\
    StronglySorted Z.le (d_ocb_ind d') /\ StronglySorted Z.lt (d_eab_ind d') /\
    (forall p, In p (combine (d_ocb_ind d') (d_eab_ind d')) ->
       pairable (d_ocb d) (d_eab d) omn omx emn emx oks eks (d_max_delta d * usec)
         (fst p) (snd p)) /\
    (spaced (d_eab d) emn emx eks (2 * (d_max_delta d * usec)) ->
     StronglySorted Z.lt (d_ocb_ind d')) /\
    (spaced (d_ocb d) omn omx oks (2 * (d_max_delta d * usec)) ->
     spaced (d_eab d) emn emx eks (2 * (d_max_delta d * usec)) ->
     strictly_time_sorted (b_dtime (d_eab d)) -> time_sorted (b_dtime (d_ocb d)) ->
     forall io ie, In (io, ie) (combine (d_ocb_ind d') (d_eab_ind d')) <->
       pairable (d_ocb d) (d_eab d) omn omx emn emx oks eks (d_max_delta d * usec) io ie).
Proof.
  intros WO WE CO CE Hdel Hload. unfold set_good_ind. rewrite Hload. cbn [negb].
  destruct (retrieve_spec (d_ocb d) omn omx oks WO CO) as [g [G1 [G2 G3]]].
  rewrite G1. cbn [bind].
  assert (Hgin : forall i, In i g -> 0 <= i < zlen (b_dtime (d_ocb d))).
  { intros i Hi. apply G3, good_in in Hi. destruct WO as [_ [WO _]]. lia. }
  rewrite pick_spec by exact Hgin. cbn [bind].
  set (odat := map (tm (b_dtime (d_ocb d))) g).
  assert (HL : zlen odat = zlen g) by apply zlen_map.
  destruct (pair_loop_spec (d_eab d) emn emx eks odat g (d_max_delta d) WE CE HL Hdel
    (S (S (Z.to_nat (b_records (d_eab d))))) (-1) 0) as [l [L1 [L2 [L3 [L4 L5]]]]].
  { lia. } { lia. } { now left. } { destruct WE. lia. }
  rewrite L1. cbn [bind].
  assert (Hing : forall p, In p l -> In (tm g (fst p)) g).
  { intros p Hp. apply L4 in Hp. destruct Hp as [Hp _]. unfold tm. apply nth_In.
    rewrite HL in Hp. unfold zlen in Hp. lia. }
  assert (Hm1 : map fst (map (to_pair g) l) = map (fun p => tm g (fst p)) l).
  { rewrite map_map. reflexivity. }
  assert (Hm2 : map snd (map (to_pair g) l) = map snd l).
  { rewrite map_map. reflexivity. }
  rewrite Hm1, Hm2.
  rewrite pick_spec.
  2:{ intros i Hi. apply in_map_iff in Hi. destruct Hi as [p [<- Hp]]. apply Hgin. now apply Hing. }
  cbn [bind].
  set (oi := map (fun p => tm g (fst p)) l) in *.
  set (d1 := mkD (d_ocb d) (d_eab d) true (d_max_delta d) (zlen (map (to_pair g) l))
               (map (tm (b_dtime (d_ocb d))) oi) oi (map snd l) (d_rec d)).
  assert (W1 : wf_dual d1).
  { unfold wf_dual, d1, oi. cbn [d_records d_dtime d_ocb_ind d_eab_ind].
    rewrite !zlen_map. auto. }
  destruct (dual_set_ok d1 0 W1) as [d' [S1 [S2 [S3 S4]]]].
  { unfold d1. cbn [d_records]. unfold zlen. lia. }
  exists d'. split; [exact S1|].
  pose proof (wf_same_pairs _ _ S2 W1) as W'.
  destruct S2 as [Q1 [Q2 [Q3 [Q4 [Q5 [Q6 [Q7 Q8]]]]]]].
  cbn [d1 d_ocb d_eab d_max_delta d_loaded d_dtime d_ocb_ind d_eab_ind d_records] in *.
  split; [exact Q1|]. split; [exact Q2|]. split; [exact Q4|]. split; [exact Q3|].
  split; [exact W'|]. split; [exact S3|]. split; [exact S4|].
  rewrite Q7, Q8, Q6.
  assert (Htm : forall p, In p l -> tm odat (fst p) = tm (b_dtime (d_ocb d)) (tm g (fst p))).
  { intros p Hp. apply tm_map. apply L4 in Hp. lia. }
  assert (Hcomb : combine oi (map snd l) = map (to_pair g) l).
  { unfold oi, to_pair. clear. induction l as [|p l IH]; [reflexivity|]. cbn. now rewrite IH. }
  assert (Hpair : forall p, In p l ->
     pairable (d_ocb d) (d_eab d) omn omx emn emx oks eks (d_max_delta d * usec)
       (tm g (fst p)) (snd p)).
  { intros p Hp. pose proof (L4 p Hp) as [P1 [P2 [P3 P4]]]. split.
    - apply G3. now apply Hing.
    - split; [exact P3|]. unfold within in P4. rewrite Htm in P4 by exact Hp. lia. }
  assert (Hle : StronglySorted Z.le oi).
  { unfold oi. rewrite <- (map_map fst (tm g)).
    apply strong_map_le with (P := fun x => 0 <= x < zlen g).
    - intros x y Hx Hy Hxy. destruct (Z.eq_dec x y) as [->|]; [lia|].
      enough (tm g x < tm g y) by lia. apply sorted_tm_lt; [exact G2|lia|lia].
    - apply Forall_forall. intros x Hx. apply in_map_iff in Hx. destruct Hx as [p [<- Hp]].
      apply L4 in Hp. lia.
    - exact L2. }
  split; [reflexivity|]. split; [exact Hle|]. split; [exact L3|]. split.
  { intros p Hp. rewrite Hcomb in Hp. apply in_map_iff in Hp. destruct Hp as [q [<- Hq]].
    cbn [to_pair fst snd]. now apply Hpair. }
  split.
  { intros Sp.
    assert (Hne : forall p q, In p l -> In q l -> tm g (fst p) = tm g (fst q) -> snd p = snd q).
    { intros p q Hp Hq Heq. destruct (Z.eq_dec (snd p) (snd q)) as [|Ne]; [assumption|].
      destruct (Hpair p Hp) as [_ [P1 P2]]. destruct (Hpair q Hq) as [_ [P3 P4]].
      specialize (Sp (snd p) (snd q) P1 P3 Ne). rewrite Heq in P2. lia. }
    unfold oi in *. clear - Hle L3 Hne. induction l as [|p l IH]; [constructor|].
    cbn [map] in *. inversion Hle as [|? ? H1 H2]; subst. inversion L3 as [|? ? H3 H4]; subst.
    constructor.
    - apply IH; try assumption. intros a b Ha Hb. apply Hne; now right.
    - rewrite Forall_forall in *. intros x Hx. pose proof (H2 x Hx).
      apply in_map_iff in Hx. destruct Hx as [q [<- Hq]].
      destruct (Z.eq_dec (tm g (fst p)) (tm g (fst q))) as [Eq|]; [|lia].
      specialize (Hne p q (or_introl eq_refl) (or_intror Hq) Eq).
      specialize (H4 (snd q) (in_map snd _ _ Hq)). lia. }
  intros SpO SpE St1 St2 io ie. rewrite Hcomb.
  assert (Hodat : forall a, 0 <= a < zlen odat -> tm odat a = tm (b_dtime (d_ocb d)) (tm g a)).
  { intros a Ha. apply tm_map. lia. }
  assert (Hgood : forall a, 0 <= a < zlen odat -> good_record (d_ocb d) omn omx oks (tm g a)).
  { intros a Ha. apply G3. unfold tm. apply nth_In. rewrite HL in Ha. unfold zlen in Ha. lia. }
  assert (Hinj : forall a b, 0 <= a < zlen odat -> 0 <= b < zlen odat -> a <> b -> tm g a <> tm g b).
  { intros a b Ha Hb Hab. destruct (Z_lt_ge_dec a b) as [Lt|Ge].
    - pose proof (sorted_tm_lt g G2 a b ltac:(lia) ltac:(lia)). lia.
    - pose proof (sorted_tm_lt g G2 b a ltac:(lia) ltac:(lia)). lia. }
  assert (Hap : apart (d_eab d) emn emx eks odat (d_max_delta d)).
  { split.
    - intros a b Ha Hb Hab. now apply SpE.
    - intros a b Ha Hb Hab. rewrite !Hodat by assumption. apply SpO; auto. }
  assert (Hso : time_sorted odat).
  { intros a b H1 H2. rewrite !Hodat by lia. apply St2.
    - split; [now apply (good_in (d_ocb d) omn omx oks), Hgood; lia|].
      destruct (Z.eq_dec a b) as [->|]; [lia|].
      pose proof (sorted_tm_lt g G2 a b ltac:(lia) ltac:(lia)). lia.
    - destruct WO as [_ [WO _]]. rewrite WO.
      apply (good_in (d_ocb d) omn omx oks), Hgood. lia. }
  specialize (L5 Hap St1 Hso). rewrite in_map_iff. split.
  - intros [p [P1 P2]]. injection P1 as <- <-. now apply Hpair.
  - intros [P1 [P2 P3]]. apply G3 in P1. apply (In_nth _ _ 0) in P1.
    destruct P1 as [n [N1 N2]]. exists (Z.of_nat n, ie). split.
    + unfold to_pair, tm. cbn [fst snd]. rewrite Nat2Z.id. now rewrite N2.
    + apply L5. assert (Hn : 0 <= Z.of_nat n < zlen odat) by (rewrite HL; unfold zlen; lia).
      split; [exact Hn|]. split; [apply good_in in P2; lia|]. split; [exact P2|].
      unfold within. rewrite Hodat by exact Hn.
      assert (tm g (Z.of_nat n) = io) as -> by (unfold tm; rewrite Nat2Z.id; exact N2). lia.
Qed.

(** ** Matching and processing with a DualBoundary *)
Definition dual_at (d : dual) (r : Z) : dual :=
  match dual_set_rec_ind d r with Ok d' => d' | Err _ => d end.

Lemma dual_set_total d r : wf_dual d -> dual_set_rec_ind d r = Ok (dual_at d r).
Proof.
  intros [W1 [W2 W3]]. unfold dual_at, dual_set_rec_ind.
  destruct (r <? 0) eqn:E; [reflexivity|].
  destruct (d_records d <=? r) eqn:E2; [reflexivity|]. zify_bool.
  rewrite !getE_tm by lia. reflexivity.
Qed.

Lemma dual_at_fields d r : wf_dual d ->
  d_records (dual_at d r) = d_records d /\ d_dtime (dual_at d r) = d_dtime d /\
  d_rec (dual_at d r) = Some r.
Proof.
  intros [W1 [W2 W3]]. unfold dual_at, dual_set_rec_ind.
  destruct (r <? 0) eqn:E; [auto|].
  destruct (d_records d <=? r) eqn:E2; [auto|]. zify_bool.
  rewrite !getE_tm by lia. auto.
Qed.

Lemma dual_at_twice d r r' : wf_dual d -> dual_set_rec_ind (dual_at d r) r' = Ok (dual_at d r').
Proof.
  intros W. pose proof W as [W1 [W2 W3]]. rewrite <- (dual_set_total d r' W).
  unfold dual_at, dual_set_rec_ind.
  destruct (r <? 0) eqn:E; [reflexivity|].
  destruct (d_records d <=? r) eqn:E2; [reflexivity|]. zify_bool.
  rewrite !(getE_tm _ r) by lia. reflexivity.
Qed.

Lemma dual_at_self d r : wf_dual d -> in_step d -> d_rec d = Some r -> dual_at d r = d.
Proof.
  intros [W1 [W2 W3]] [r' [S1 [S2 S3]]] Hr. rewrite Hr in S1. injection S1 as <-.
  unfold dual_at, dual_set_rec_ind, dual_put. destruct d as [o e ld md rc dt oi ei rr]. cbn in *.
  subst rr. destruct S3 as [[A [B C]]|[[A [B C]]|[A [B [C D]]]]].
  - rewrite (proj2 (Z.ltb_lt _ _)) by lia. f_equal; [rewrite <- B|rewrite <- C];
      apply set_rec_ind_same.
  - rewrite (proj2 (Z.ltb_ge _ _)) by lia. rewrite (proj2 (Z.leb_gt _ _)) by lia.
    rewrite !getE_tm by lia. cbn [bind]. apply tm_nth in B. apply tm_nth in C.
    rewrite B, C. f_equal; apply set_rec_ind_same.
  - rewrite (proj2 (Z.ltb_ge _ _)) by lia. rewrite (proj2 (Z.leb_le _ _)) by lia.
    replace (rc - r) with 0 by lia. rewrite !Z.add_0_r. rewrite <- C, <- D.
    f_equal; apply set_rec_ind_same.
Qed.

Definition all_pairs (d : dual) (k : Z) : Prop := 0 <= k < d_records d.

Lemma dual_cycle_good d : 0 < d_records d ->
  forall i, -1 <= i < Z.max (d_records d) 0 ->
  exists j, dual_cycle (d_records d) i = Ok j /\ next_good (all_pairs d) (d_records d) i j.
Proof.
  intros Hn i Hi. exists (i + 1). unfold dual_cycle.
  rewrite (proj2 (Z.ltb_lt _ _) Hn). rewrite (proj2 (Z.ltb_lt _ _)) by lia.
  split; [reflexivity|]. unfold next_good, all_pairs.
  destruct (Z.eq_dec (i + 1) (d_records d)) as [E|E].
  - right. split; [lia|]. intros k. lia.
  - left. split; [lia|]. split; [lia|]. intros k. lia.
Qed.

Section DualDriver.
  Variable d : dual.
  Variable dat : list Z.
  Variable max_tol : Z.
  Hypothesis W : wf_dual d.
  Hypothesis SS : strictly_time_sorted (d_dtime d).
  Hypothesis SD : time_sorted dat.
  Hypothesis Ht : 0 <= max_tol.
  Hypothesis Hd : dat <> [].
  Hypothesis S : in_step d.
  Variable r0 : Z.
  Hypothesis Hr0 : d_rec d = Some r0.
  Hypothesis Hr : -1 <= r0 < d_records d.
  Hypothesis Hpos : 0 < d_records d.
  Notation Dp := (disjoint_periods (d_dtime d) dat (all_pairs d) (d_records d) r0 (max_tol * usec)).

  Lemma match_dual_mk rec i :
    -1 <= rec < d_records d -> 0 <= i < zlen dat ->
    match_data_dual (dual_at d rec) dat i max_tol None None []
    = bind (match_core (d_records d) (d_dtime d) (dual_cycle (d_records d)) dat
              (max_tol * usec) rec i) (fun x => Ok (fst x, dual_at d (snd x))).
  Proof.
    intros H1 H2. unfold match_data_dual, dual_rec_ind.
    destruct (dual_at_fields d rec W) as [F1 [F2 F3]].
    rewrite (proj2 (Z.leb_gt _ _)) by lia. rewrite F3, F1. cbn [bind].
    rewrite (proj2 (Z.leb_gt _ _)) by lia. cbn [andb]. rewrite F1, F2, F3. cbn [bind].
    destruct (match_core _ _ _ _ _ _ _) as [[o r]|]; [|reflexivity]. cbn [bind fst snd].
    now rewrite dual_at_twice by exact W.
  Qed.

  Lemma vort_pairs_dual_spec :
    (Dp /\ vort_pairs_dual d dat max_tol None None [] = Err TypeError) \/
    (~ Dp /\ exists l, vort_pairs_dual d dat max_tol None None [] = Ok l /\
       pairs_exactly (d_dtime d) dat (candidate (all_pairs d) (d_records d) r0)
         (max_tol * usec) l).
  Proof.
    assert (Hn : 0 < zlen dat) by (unfold zlen; destruct dat; [contradiction|simpl; lia]).
    assert (Htol : 0 <= max_tol * usec) by (unfold usec; lia).
    pose proof (stuck_disjoint (d_records d) (d_dtime d) dat (max_tol * usec) (all_pairs d) r0 Hr Hn) as Hs.
    destruct (vort_loop_spec (d_records d) (d_dtime d) (dual_cycle (d_records d)) dat (max_tol * usec)
      (all_pairs d) dual d_records dual_cursor
      (fun d i => match_data_dual d dat i max_tol None None [])
      (dual_at d) ltac:(symmetry; apply W) (dual_cycle_good d Hpos) (fun k H => H)
      SS SD Htol (fun r => proj1 (dual_at_fields d r W))
      ltac:(intros r; unfold dual_cursor; now rewrite (proj2 (proj2 (dual_at_fields d r W))))
      match_dual_mk
      (Datatypes.S (length dat)) r0 0) as [[A B]|[A [l [B C]]]]; try lia.
    { unfold zlen. lia. }
    - left. split; [now apply Hs|]. unfold vort_pairs_dual.
      rewrite (dual_at_self d r0 W S Hr0) in B. exact B.
    - right. split; [intros D; apply A, Hs, D|]. exists l.
      rewrite (dual_at_self d r0 W S Hr0) in B. split; [exact B|exact C].
  Qed.
End DualDriver.
