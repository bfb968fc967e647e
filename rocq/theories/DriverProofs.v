(** Proofs about the processing loops. *)
From Coq Require Import String ZArith QArith List Bool Lia Sorted.
From Verif Require Import PyBase CycleModel CycleSpec CycleProofs DriverModel DriverSpec.
Import ListNotations.
Open Scope string_scope.
Open Scope list_scope.
Open Scope Z_scope.

Section Cursor.
  Variable N : Z.
  Variable dtime dat : list Z.
  Variable tol : Z.
  Variable G : Z -> Prop.
  Hypothesis HN : zlen dtime = N.
  Hypothesis SS : strictly_time_sorted dtime.
  Hypothesis SD : time_sorted dat.
  Notation t_ := (tm dtime).
  Notation d_ := (tm dat).
  Notation cand := (candidate G N).

  Lemma cand_sub rec r k : rec <= r -> cand rec r -> cand r k -> cand rec k.
  Proof.
    intros H [A1 A2] [B1 B2]. split; [lia|].
    destruct B2 as [->|[B2 B3]]; [exact A2|]. right. split; [lia|exact B3].
  Qed.

  Lemma cursor_step rec i1 r1 i r :
    0 <= i1 <= i -> i < zlen dat -> rec <= r1 ->
    closest dtime dat (cand rec) i1 r1 ->
    (closest dtime dat (cand rec) i r <-> closest dtime dat (cand r1) i r).
  Proof.
    intros Hi Hn Hr [C1 C2].
    assert (Hd : d_ i1 <= d_ i) by (apply SD; lia).
    assert (Hlt : forall a c, 0 <= a < c -> c < N -> t_ a < t_ c)
      by (intros; apply SS; lia).
    split.
    - intros [D1 D2]. split.
      + destruct D1 as [E1 E2]. split; [exact E1|].
        destruct (Z.lt_trichotomy r r1) as [L|[L|L]]; [|now left|].
        * exfalso. destruct (C2 r (conj E1 E2)) as [_ K]. specialize (K L).
          destruct (D2 r1 C1) as [K2 _].
          specialize (Hlt r r1 ltac:(lia) ltac:(destruct C1; lia)). lia.
        * right. split; [exact L|]. destruct E2 as [->|[_ E2]]; [lia|exact E2].
      + intros k Hk. apply D2. eapply cand_sub; eauto.
    - intros [D1 D2]. split; [eapply cand_sub; eauto|].
      intros k Hk. destruct (Z_lt_ge_dec k r1) as [L|L].
      + destruct (C2 k Hk) as [_ K]. specialize (K L).
        assert (Hc1 : cand r1 r1) by (split; [destruct C1; lia|now left]).
        destruct (D2 r1 Hc1) as [K2 _].
        specialize (Hlt k r1 ltac:(destruct Hk; lia) ltac:(destruct C1; lia)). lia.
      + apply D2. destruct Hk as [K1 K2]. split; [exact K1|].
        destruct (Z.eq_dec k r1) as [->|Ne]; [now left|]. right. split; [lia|].
        destruct K2 as [->|[_ K2]]; [destruct C1; lia|exact K2].
  Qed.

  Lemma closest_same_time C i i' r :
    d_ i = d_ i' -> (closest dtime dat C i r <-> closest dtime dat C i' r).
  Proof. intros E. unfold closest. rewrite E. reflexivity. Qed.

  Lemma closest_unique C i r r' :
    closest dtime dat C i r -> closest dtime dat C i r' -> r = r'.
  Proof.
    intros [A1 A2] [B1 B2].
    destruct (Z.lt_trichotomy r r') as [L|[L|L]]; [|exact L|].
    - destruct (A2 r' B1) as [K _]. destruct (B2 r A1) as [_ K']. specialize (K' L). lia.
    - destruct (B2 r A1) as [K _]. destruct (A2 r' B1) as [_ K']. specialize (K' L). lia.
  Qed.
End Cursor.

(** A non-empty set of records with decidable membership has a closest one. *)
Lemma closest_exists dtime dat (C : Z -> Prop) N i :
  (forall k, C k -> 0 <= k < N) -> (forall k, 0 <= k < N -> C k \/ ~ C k) ->
  (exists k, C k) -> exists r, closest dtime dat C i r.
Proof.
  intros HC Hdec [k0 H0].
  assert (Hind : forall n : nat, Z.of_nat n <= N ->
    (forall k, C k -> ~ k < Z.of_nat n) \/
    (exists r, r < Z.of_nat n /\ closest dtime dat (fun k => C k /\ k < Z.of_nat n) i r)).
  { induction n as [|n IH]; intros Hn.
    - left. intros k Hk. specialize (HC k Hk). lia.
    - destruct (Hdec (Z.of_nat n) ltac:(lia)) as [Y|Y].
      + right. destruct (IH ltac:(lia)) as [E|[r [R1 [[R2 R3] R4]]]].
        * exists (Z.of_nat n). split; [lia|]. split; [split; [exact Y|lia]|].
          intros k [K1 K2]. specialize (E k K1).
          assert (k = Z.of_nat n) by lia. subst. split; lia.
        * destruct (Z_lt_ge_dec (Z.abs (tm dtime (Z.of_nat n) - tm dat i))
                                (Z.abs (tm dtime r - tm dat i))) as [L|L].
          -- exists (Z.of_nat n). split; [lia|]. split; [split; [exact Y|lia]|].
             intros k [K1 K2]. destruct (Z.eq_dec k (Z.of_nat n)) as [->|Ne]; [split; lia|].
             destruct (R4 k ltac:(split; [exact K1|lia])) as [Q _]. split; lia.
          -- exists r. split; [lia|]. split; [split; [exact R2|lia]|].
             intros k [K1 K2]. destruct (Z.eq_dec k (Z.of_nat n)) as [->|Ne]; [split; lia|].
             apply R4. split; [exact K1|lia].
      + destruct (IH ltac:(lia)) as [E|[r [R1 [[R2 R3] R4]]]].
        * left. intros k Hk. specialize (E k Hk). intros Hlt.
          assert (k = Z.of_nat n) by lia. subst. contradiction.
        * right. exists r. split; [lia|]. split; [split; [exact R2|lia]|].
          intros k [K1 K2]. apply R4. split; [exact K1|].
          assert (k <> Z.of_nat n) by (intros ->; contradiction). lia. }
  pose proof (HC k0 H0) as Hk0.
  destruct (Hind (Z.to_nat N) ltac:(lia)) as [E|[r [R1 [[R2 R3] R4]]]].
  - exfalso. apply (E k0 H0). lia.
  - exists r. split; [exact R2|]. intros k Hk. apply R4. split; [exact Hk|].
    specialize (HC k Hk). lia.
Qed.

Lemma in_map_fst {A B} (l : list (A * B)) a : In a (map fst l) -> exists b, In (a, b) l.
Proof. rewrite in_map_iff. intros [[x y] [<- H]]. now exists y. Qed.

Lemma strictly_sorted_weak l : strictly_time_sorted l -> time_sorted l.
Proof.
  intros SS i j H1 H2. destruct (Z.eq_dec i j) as [->|]; [lia|].
  enough (tm l i < tm l j) by lia. apply SS; lia.
Qed.

(** The loops for any boundary object: [mk r] is the object with its cursor at
    [r], and matching it is match_core with some cycling method. *)
Section Loop.
  Variable N : Z.
  Variable dtime : list Z.
  Variable cycle : Z -> res Z.
  Variable dat : list Z.
  Variable tol : Z.
  Variable G : Z -> Prop.
  Variable obj : Type.
  Variable recs rind : obj -> Z.
  Variable mt : obj -> Z -> res (option Z * obj).
  Variable mk : Z -> obj.
  Hypothesis Hrec : zlen dtime = N.
  Hypothesis Hcycle : forall i, -1 <= i < Z.max N 0 ->
    exists j, cycle i = Ok j /\ next_good G N i j.
  Hypothesis HG : forall k, G k -> 0 <= k < N.
  Hypothesis SS : strictly_time_sorted dtime.
  Hypothesis SD : time_sorted dat.
  Hypothesis Ht : 0 <= tol.
  Hypothesis Hrecs : forall r, recs (mk r) = N.
  Hypothesis Hrind : forall r, rind (mk r) = r.
  Hypothesis Hmt : forall rec i, -1 <= rec < N -> 0 <= i < zlen dat ->
    mt (mk rec) i = bind (match_core N dtime cycle dat tol rec i)
                         (fun x => Ok (fst x, mk (snd x))).

  Notation t_ := (tm dtime).
  Notation d_ := (tm dat).
  Notation cand := (candidate G N).
  Notation clo := (closest dtime dat).
  Notation win := (within dtime dat tol).
  Notation stuck rec i := (i < zlen dat /\ rec < N /\
    none_case N dtime dat tol G rec i).

  (** One call of match_data_ocb with the cursor at [rec]. *)
  Lemma call rec i :
    -1 <= rec < N -> 0 <= i < zlen dat ->
    (exists r, mt (mk rec) i = Ok (None, mk r) /\ stuck rec i) \/
    (exists i1 r1, mt (mk rec) i = Ok (Some i1, mk r1) /\
       ~ stuck rec i /\ -1 <= r1 /\
       ((i <= i1 < zlen dat /\ 0 <= r1 < N /\ rec <= r1 /\ win r1 i1 /\
         clo (cand rec) i1 r1 /\
         forall i' k, i <= i' < i1 -> cand rec k -> ~ win k i') \/
        ((zlen dat <= i1 \/ N <= r1) /\
         forall i' k, i <= i' < zlen dat -> cand rec k -> ~ win k i'))).
  Proof.
    intros Hr Hi. rewrite Hmt by assumption.
    destruct (match_core_spec N dtime cycle dat tol G Hrec Hcycle HG rec i Ht)
      as [o [r [R1 [R2 R3]]]]; try lia.
    pose proof (match_core_none N dtime cycle dat tol G Hrec Hcycle rec i o r Ht
      ltac:(lia) ltac:(lia) Hi R1) as R4.
    rewrite R1. cbn [bind fst snd]. clear R1.
    specialize (R3 (strictly_sorted_weak _ SS) SD).
    destruct o as [i1|].
    2:{ left. exists r. split; [reflexivity|]. split; [lia|]. split; [lia|]. now apply R4. }
    right. exists i1, r. split; [reflexivity|]. split.
    { intros [_ [_ Hs]]. apply R4 in Hs. discriminate. }
    assert (Hrr : rec <= r).
    { destruct R2 as [[j [_ [_ [_ [Q _]]]]]|[Q _]]; exact Q. }
    split; [lia|].
    destruct R3 as [[j [J1 [J2 [J3 [J4 J5]]]]]|[J1 J2]].
    - injection J1 as <-. destruct R2 as [[j [K1 [K2 [K3 [K4 K5]]]]]|[K1 [K2|[j [K2 [K3 K4]]]]]];
        [|discriminate|].
      + injection K1 as <-. left. split; [lia|]. split; [destruct K3; lia|].
        split; [lia|]. split; [exact K5|]. split; [now apply J5|exact J4].
      + injection K2 as <-. lia.
    - right. split; [|exact J2].
      destruct J1 as [J1|[J1|[j [J1 J3]]]]; [discriminate|now right|].
      injection J1 as <-. now left.
  Qed.

  Lemma not_stuck_later rec i : 0 <= rec -> 1 <= i -> ~ stuck rec i.
  Proof. intros H1 H2 [_ [_ [[K _]|[K _]]]]; lia. Qed.

  Definition covers (rec i : Z) (l : list (Z * Z)) : Prop :=
    StronglySorted Z.lt (map fst l) /\
    forall k r, In (k, r) l <-> (i <= k < zlen dat /\ win r k /\ clo (cand rec) k r).

  Lemma covers_nil rec i :
    (forall i' k, i <= i' < zlen dat -> cand rec k -> ~ win k i') -> covers rec i [].
  Proof.
    intros H. split; [constructor|]. intros k r. split; [intros []|].
    intros [K1 [K2 [K3 _]]]. exact (H k r K1 K3 K2).
  Qed.

  Lemma covers_past rec i : zlen dat <= i \/ N <= rec -> covers rec i [].
  Proof.
    intros H. apply covers_nil. intros i' k H1 [H2 [H3|[H3 _]]]; lia.
  Qed.

  Lemma vort_loop_spec fuel rec i :
    -1 <= rec -> 0 <= i -> (Z.to_nat (zlen dat - i) < fuel)%nat ->
    (stuck rec i /\
       vort_loop obj recs rind mt dat fuel (mk rec) i
         = Err TypeError) \/
    (~ stuck rec i /\ exists l,
       vort_loop obj recs rind mt dat fuel (mk rec) i = Ok l /\
       covers rec i l).
  Proof.
    revert rec i. induction fuel as [|f IH]; intros rec i Hr Hi Hf; [lia|].
    cbn [vort_loop]. rewrite ?Hrecs, ?Hrind.
    destruct ((i <? zlen dat) && (rec <? N)) eqn:E.
    2:{ right. apply andb_false_iff in E. split.
        - intros [A [B _]]. destruct E as [E|E]; zify_bool; lia.
        - exists []. split; [reflexivity|]. apply covers_past.
          destruct E as [E|E]; zify_bool; lia. }
    apply andb_true_iff in E. destruct E as [E1 E2]. zify_bool.
    destruct (call rec i ltac:(lia) ltac:(lia)) as
      [[r [R1 R2]]|[i1 [r1 [R1 [R2 [R3 R4]]]]]]; rewrite R1; cbn [bind].
    - left. split; [exact R2|reflexivity].
    - right. split; [exact R2|]. rewrite ?Hrecs, ?Hrind.
      destruct ((i1 <? zlen dat) && (r1 <? N)) eqn:E.
      + apply andb_true_iff in E. destruct E as [E3 E4]. zify_bool.
        destruct R4 as [[A1 [A2 [A3 [A4 [A5 A6]]]]]|[[A1|A1] _]]; [|lia|lia].
        destruct (IH r1 (i1 + 1) ltac:(lia) ltac:(lia) ltac:(lia))
          as [[B1 B2]|[_ [l [B1 [B2 B3]]]]].
        { exfalso. revert B1. apply not_stuck_later; lia. }
        rewrite B1. cbn [bind]. eexists. split; [reflexivity|]. split.
        * cbn [map fst]. constructor; [exact B2|]. apply Forall_forall.
          intros k Hk. apply in_map_fst in Hk. destruct Hk as [r Hk].
          apply B3 in Hk. lia.
        * intros k r. cbn [In]. rewrite B3. split.
          -- intros [K|[K1 [K2 K3]]].
             ++ injection K as <- <-. split; [lia|]. split; assumption.
             ++ split; [lia|]. split; [exact K2|].
                eapply (cursor_step N dtime dat G Hrec SS SD rec i1 r1);
                  try eassumption; lia.
          -- intros [K1 [K2 K3]].
             destruct (Z.lt_trichotomy k i1) as [L|[L|L]].
             ++ exfalso. apply (A6 k r ltac:(lia)); [apply K3|exact K2].
             ++ subst k. left. f_equal. eapply closest_unique; eassumption.
             ++ right. split; [lia|]. split; [exact K2|].
                eapply (cursor_step N dtime dat G Hrec SS SD rec i1 r1);
                  try eassumption; lia.
      + apply andb_false_iff in E.
        destruct R4 as [[A1 [A2 _]]|[A1 A2]].
        { destruct E as [E|E]; zify_bool; lia. }
        exists []. split; [|now apply covers_nil].
        destruct f as [|f]; cbn [vort_loop]; rewrite ?Hrecs, ?Hrind;
          (replace ((i1 <? zlen dat) && (r1 <? N)) with false; [reflexivity|]);
          symmetry; apply andb_false_iff; exact E.
  Qed.

  (** ** The SuperMAG loop *)
  Lemma same_time_in i k :
    0 <= i < zlen dat ->
    (In k (same_time dat i) <-> 0 <= k < zlen dat /\ d_ k = d_ i).
  Proof.
    intros Hi. unfold same_time.
    assert (Hg : forall k, 0 <= k < zlen dat -> py_get dat k = Some (d_ k)).
    { intros k' Hk. pose proof (getE_tm dat k' Hk) as H. unfold getE in H.
      destruct (py_get dat k'); [now injection H as ->|discriminate]. }
    rewrite (Hg i Hi). rewrite filter_In, in_map_iff. split.
    - intros [[n [<- Hn]] Hf]. apply in_seq in Hn.
      assert (0 <= Z.of_nat n < zlen dat) by (unfold zlen; lia).
      rewrite Hg in Hf by assumption. zify_bool. auto.
    - intros [Hk Hd]. split.
      + exists (Z.to_nat k). split; [lia|]. apply in_seq. unfold zlen in Hk. lia.
      + rewrite Hg by assumption. zify_bool. now apply Z.eqb_eq.
  Qed.

  Lemma sorted_filter {A} (R : A -> A -> Prop) p l :
    StronglySorted R l -> StronglySorted R (filter p l).
  Proof.
    induction 1 as [|a l H1 IH H2]; simpl; [constructor|].
    destruct (p a); [|exact IH]. constructor; [exact IH|].
    rewrite Forall_forall in *. intros x Hx. apply filter_In in Hx. apply H2, Hx.
  Qed.

  Lemma sorted_seq n m : StronglySorted Z.lt (map Z.of_nat (seq n m)).
  Proof.
    revert n. induction m as [|m IH]; intros n; simpl; constructor; [apply IH|].
    apply Forall_forall. intros x Hx. apply in_map_iff in Hx.
    destruct Hx as [y [<- Hy]]. apply in_seq in Hy. lia.
  Qed.

  Lemma same_time_sorted i : StronglySorted Z.lt (same_time dat i).
  Proof.
    unfold same_time. destruct (py_get dat i); [|constructor].
    apply sorted_filter, sorted_seq.
  Qed.

  Lemma last_max (l : list Z) x : StronglySorted Z.lt l -> In x l -> x <= last l 0 /\ In (last l 0) l.
  Proof.
    revert x. induction l as [|a l IH]; [intros x _ []|]. intros x H Hx. inversion H as [|? ? H1 H2]; subst.
    destruct l as [|c l]; [destruct Hx as [->|[]]; simpl; split; [lia|now left]|].
    change (last (a :: c :: l) 0) with (last (c :: l) 0).
    destruct Hx as [->|Hx].
    - destruct (IH c H1 (or_introl eq_refl)) as [I1 I2]. split; [|now right].
      rewrite Forall_forall in H2. specialize (H2 _ I2). lia.
    - destruct (IH x H1 Hx) as [I1 I2]. split; [exact I1|now right].
  Qed.

  Lemma sorted_app (l l' : list Z) :
    StronglySorted Z.lt l -> StronglySorted Z.lt l' ->
    (forall x y, In x l -> In y l' -> x < y) -> StronglySorted Z.lt (l ++ l').
  Proof.
    intros H H' Hxy. induction H as [|a l H1 IH H2]; [exact H'|]. simpl. constructor.
    - apply IH. intros x y Hx. apply Hxy. now right.
    - apply Forall_forall. intros x Hx. apply in_app_or in Hx. destruct Hx as [Hx|Hx].
      + rewrite Forall_forall in H2. now apply H2.
      + apply Hxy; [now left|exact Hx].
  Qed.

  Lemma supermag_loop_spec fuel rec i :
    -1 <= rec -> 0 <= i -> (Z.to_nat (zlen dat - i) < fuel)%nat ->
    (forall k, 0 <= k < i -> i < zlen dat -> d_ k < d_ i) ->
    (stuck rec i /\
       supermag_loop obj recs rind mt dat fuel (mk rec) i
         = Err TypeError) \/
    (~ stuck rec i /\ exists l,
       supermag_loop obj recs rind mt dat fuel (mk rec) i = Ok l /\
       covers rec i l).
  Proof.
    revert rec i. induction fuel as [|f IH]; intros rec i Hr Hi Hf Hprev; [lia|].
    cbn [supermag_loop]. rewrite ?Hrecs, ?Hrind.
    destruct ((i <? zlen dat) && (rec <? N)) eqn:E.
    2:{ right. apply andb_false_iff in E. split.
        - intros [A [B _]]. destruct E as [E|E]; zify_bool; lia.
        - exists []. split; [reflexivity|]. apply covers_past.
          destruct E as [E|E]; zify_bool; lia. }
    apply andb_true_iff in E. destruct E as [E1 E2]. zify_bool.
    destruct (call rec i ltac:(lia) ltac:(lia)) as
      [[r [R1 R2]]|[i1 [r1 [R1 [R2 [R3 R4]]]]]]; rewrite R1; cbn [bind].
    - left. split; [exact R2|reflexivity].
    - right. split; [exact R2|]. rewrite ?Hrecs, ?Hrind.
      destruct ((i1 <? zlen dat) && (r1 <? N)) eqn:E.
      + apply andb_true_iff in E. destruct E as [E3 E4]. zify_bool.
        destruct R4 as [[A1 [A2 [A3 [A4 [A5 A6]]]]]|[[A1|A1] _]]; [|lia|lia].
        assert (Hin : In i1 (same_time dat i1)) by (apply same_time_in; [lia|split; [lia|reflexivity]]).
        destruct (last_max _ _ (same_time_sorted i1) Hin) as [L1 L2].
        set (m := last (same_time dat i1) 0) in *.
        apply same_time_in in L2; [|lia]. destruct L2 as [L2 L3].
        (* measurements before i1 are strictly earlier *)
        assert (Hbefore : forall k, 0 <= k < i1 -> d_ k < d_ i1).
        { intros k Hk. destruct (Z_lt_ge_dec k i) as [L|L].
          - specialize (Hprev k ltac:(lia) ltac:(lia)).
            assert (d_ i <= d_ i1) by (apply SD; lia). lia.
          - assert (d_ k <= d_ i1) by (apply SD; lia).
            destruct (Z.eq_dec (d_ k) (d_ i1)) as [Eq|]; [|lia]. exfalso.
            apply (A6 k r1 ltac:(lia)); [apply A5|]. unfold within. rewrite Eq. exact A4. }
        assert (Hblock : forall k, In k (same_time dat i1) <-> i1 <= k <= m).
        { intros k. rewrite same_time_in by lia. split.
          - intros [K1 K2]. split.
            + destruct (Z_lt_ge_dec k i1) as [L|L]; [|lia].
              specialize (Hbefore k ltac:(lia)). lia.
            + assert (In k (same_time dat i1)) by (apply same_time_in; [lia|auto]).
              destruct (last_max _ _ (same_time_sorted i1) H) as [Q _]. exact Q.
          - intros K. split; [lia|].
            assert (d_ i1 <= d_ k) by (apply SD; lia).
            assert (d_ k <= d_ m) by (apply SD; lia). lia. }
        destruct (IH r1 (m + 1) ltac:(lia) ltac:(lia) ltac:(lia))
          as [[B1 B2]|[_ [l [B1 [B2 B3]]]]].
        { intros k Hk Hm. assert (d_ k <= d_ m) by (apply SD; lia).
          assert (d_ m <= d_ (m + 1)) by (apply SD; lia).
          destruct (Z.eq_dec (d_ m) (d_ (m + 1))) as [Eq|]; [|lia]. exfalso.
          assert (In (m + 1) (same_time dat i1)) by (apply same_time_in; [lia|split; [lia|congruence]]).
          apply Hblock in H1. lia. }
        { exfalso. revert B1. apply not_stuck_later; lia. }
        rewrite B1. cbn [bind]. eexists. split; [reflexivity|]. split.
        * rewrite map_app, map_map. cbn [fst]. rewrite map_id. apply sorted_app.
          -- apply same_time_sorted.
          -- exact B2.
          -- intros x y Hx Hy. apply Hblock in Hx. apply in_map_fst in Hy.
             destruct Hy as [r Hy]. apply B3 in Hy. lia.
        * intros k r. rewrite in_app_iff, B3, in_map_iff. split.
          -- intros [[x [K1 K2]]|[K1 [K2 K3]]].
             ++ injection K1 as <- <-. pose proof K2 as K2'. apply Hblock in K2.
                apply same_time_in in K2'; [|lia]. destruct K2' as [_ K3].
                split; [lia|]. split; [unfold within; rewrite K3; exact A4|].
                now apply (closest_same_time _ dat (cand rec) x i1 r1 K3).
             ++ split; [lia|]. split; [exact K2|].
                eapply (cursor_step N dtime dat G Hrec SS SD rec i1 r1);
                  try eassumption; lia.
          -- intros [K1 [K2 K3]].
             destruct (Z_lt_ge_dec k i1) as [L|L].
             ++ exfalso. apply (A6 k r ltac:(lia)); [apply K3|exact K2].
             ++ destruct (Z_le_gt_dec k m) as [M|M].
                ** left. exists k. assert (Hk : In k (same_time dat i1)) by (apply Hblock; lia).
                   split; [|exact Hk]. apply same_time_in in Hk; [|lia].
                   f_equal. eapply closest_unique; [|exact K3].
                   now apply (closest_same_time _ dat (cand rec) k i1 r1 (proj2 Hk)).
                ** right. split; [lia|]. split; [exact K2|].
                   eapply (cursor_step N dtime dat G Hrec SS SD rec i1 r1);
                     try eassumption; lia.
      + apply andb_false_iff in E.
        destruct R4 as [[A1 [A2 _]]|[A1 A2]].
        { destruct E as [E|E]; zify_bool; lia. }
        exists []. split; [|now apply covers_nil].
        destruct f as [|f]; cbn [supermag_loop]; rewrite ?Hrecs, ?Hrind;
          (replace ((i1 <? zlen dat) && (r1 <? N)) with false; [reflexivity|]);
          symmetry; apply andb_false_iff; exact E.
  Qed.

  Lemma stuck_disjoint rec :
    -1 <= rec < N -> 0 < zlen dat ->
    (stuck rec 0 <-> disjoint_periods dtime dat G N rec tol).
  Proof.
    intros Hr Hn. unfold none_case, disjoint_periods. split.
    - intros [_ [_ [[A [j [[[B1 [B2 B3]]|[B1 B2]] [C D]]]]|[_ [A B]]]]].
      + right. split; [exact A|]. exists j. split; [lia|]. split; [exact B2|].
        split; [intros k Hk; apply B3; lia|exact D].
      + lia.
      + left. auto.
    - intros H. split; [lia|]. split; [lia|]. destruct H as [[A B]|[A [j [B [C [D E]]]]]].
      + right. auto.
      + left. split; [exact A|]. exists j. split; [|split; [lia|exact E]].
        left. split; [lia|]. split; [exact C|]. intros k Hk. apply D. lia.
  Qed.
End Loop.

Section Pairs.
  Variable b : boundary.
  Variable dat : list Z.
  Variable max_tol : Z.
  Variable mn mx : option num.
  Variable ks : list crit.
  Hypothesis W : wf_boundary b.
  Hypothesis WC : wf_crits b ks.

  Lemma next_rec_set i r : next_rec (set_rec_ind b i) mn mx ks r = next_rec b mn mx ks r.
  Proof.
    assert (Hc : forall k l, crits_good (set_rec_ind b i) k l = crits_good b k l).
    { intros k. induction l as [|[key [op v]] l IH]; [reflexivity|]. cbn [crits_good].
      change (getattr (set_rec_ind b i) key) with (getattr b key).
      destruct (getattr b key) as [[a|]|]; try reflexivity.
      destruct (getE a k); [|reflexivity]. cbn [bind]. now rewrite IH. }
    unfold next_rec. cbn [b_records b_min_fom b_max_fom set_rec_ind].
    change (known_crits (set_rec_ind b i) ks) with (known_crits b ks).
    generalize (Z.to_nat (b_records b - (r + 1))). intros n. generalize (r + 1).
    induction n as [|n IH]; intros j; cbn [scan]; cbn [b_records set_rec_ind]; [reflexivity|].
    destruct (j <? b_records b); [|reflexivity]. rewrite Hc.
    destruct (crits_good b j (known_crits b ks)) as [[|]|]; cbn [bind]; try reflexivity.
    - change (b_fom (set_rec_ind b i)) with (b_fom b).
      destruct (getE (b_fom b) j); cbn [bind]; [|reflexivity]. now rewrite IH.
    - apply IH.
  Qed.

  Lemma match_core_ext N dtime cy cy' tol rec i :
    (forall r, cy r = cy' r) ->
    match_core N dtime cy dat tol rec i = match_core N dtime cy' dat tol rec i.
  Proof.
    intros E.
    assert (Hd : forall n d a s l k, descend N dtime cy n d a s l k = descend N dtime cy' n d a s l k).
    { induction n as [|n IH]; intros; cbn [descend]; [reflexivity|]. rewrite E.
      destruct (Z.abs s <? Z.abs l); [|reflexivity]. destruct (cy' a); [|reflexivity].
      cbn [bind]. destruct (a0 <? N); [|apply IH]. destruct (getE dtime a0); [|reflexivity].
      cbn [bind]. apply IH. }
    assert (Hm : forall n r j l, main_loop N dtime cy dat tol n r j l
                 = main_loop N dtime cy' dat tol n r j l).
    { induction n as [|n IH]; intros; cbn [main_loop]; [reflexivity|]. rewrite !E.
      destruct ((j <? zlen dat) && (r <? N)); [|reflexivity].
      destruct (getE dtime r); [|reflexivity]. cbn [bind].
      destruct (getE dat j); [|reflexivity]. cbn [bind].
      destruct (a - a0 <? - tol). { destruct (cy' r); [|reflexivity]. cbn [bind]. apply IH. }
      destruct (tol <? a - a0); [apply IH|]. destruct (cy' r) as [a1|]; [|reflexivity]. cbn [bind].
      destruct (a1 <? N); [|reflexivity]. destruct (getE dtime a1); [|reflexivity].
      cbn [bind]. now rewrite Hd. }
    assert (Hf : forall r j, match_from N dtime cy dat tol r j = match_from N dtime cy' dat tol r j).
    { intros. unfold match_from. destruct (getE dtime r); [|reflexivity]. cbn [bind].
      destruct (getE dat j); [|reflexivity]. cbn [bind]. now rewrite Hm. }
    unfold match_core. rewrite E. destruct (rec <? 0); [|apply Hf].
    destruct (cy' rec); [|reflexivity]. cbn [bind]. destruct (N <=? a); [reflexivity|].
    destruct (getE dtime a); [|reflexivity]. cbn [bind].
    destruct (skip_early _ _ _ _) as [[?|]|]; [|reflexivity|reflexivity]. cbn [bind]. apply Hf.
  Qed.

  Lemma match_data_mk rec i :
    -1 <= rec < b_records b -> 0 <= i < zlen dat ->
    match_data_ocb (set_rec_ind b rec) dat i max_tol mn mx ks
    = bind (match_core (b_records b) (b_dtime b) (next_rec b mn mx ks) dat
              (max_tol * usec) rec i) (fun x => Ok (fst x, set_rec_ind b (snd x))).
  Proof.
    intros Hr Hi. unfold match_data_ocb. cbn [b_rec_ind b_records b_dtime set_rec_ind].
    rewrite (proj2 (Z.leb_gt _ _)) by lia. rewrite (proj2 (Z.leb_gt _ _)) by lia.
    rewrite (match_core_ext _ _ _ (next_rec b mn mx ks)) by (intros; apply next_rec_set).
    destruct (match_core _ _ _ _ _ _ _) as [[o r]|]; reflexivity.
  Qed.

  Hypothesis SS : strictly_time_sorted (b_dtime b).
  Hypothesis SD : time_sorted dat.
  Hypothesis Ht : 0 <= max_tol.
  Hypothesis Hr : -1 <= b_rec_ind b < b_records b.
  Hypothesis Hd : dat <> [].
  Notation G := (good_record b mn mx ks).
  Notation D := (disjoint_periods (b_dtime b) dat G (b_records b) (b_rec_ind b) (max_tol * usec)).

  Lemma dat_pos : 0 < zlen dat.
  Proof. unfold zlen. destruct dat; [contradiction|simpl; lia]. Qed.

  Lemma vort_pairs_spec :
    (D /\ vort_pairs b dat max_tol mn mx ks = Err TypeError) \/
    (~ D /\ exists l, vort_pairs b dat max_tol mn mx ks = Ok l /\
       pairs_exactly (b_dtime b) dat (candidate G (b_records b) (b_rec_ind b))
         (max_tol * usec) l).
  Proof.
    pose proof dat_pos as Hn.
    assert (Htol : 0 <= max_tol * usec) by (unfold usec; lia).
    pose proof (stuck_disjoint (b_records b) (b_dtime b) dat (max_tol * usec) G (b_rec_ind b) Hr Hn) as Hs.
    destruct (vort_loop_spec (b_records b) (b_dtime b) (next_rec b mn mx ks) dat (max_tol * usec) G
      boundary b_records b_rec_ind (fun b i => match_data_ocb b dat i max_tol mn mx ks)
      (set_rec_ind b) ltac:(apply W) (next_rec_cycle' b mn mx ks W WC) (good_in b mn mx ks)
      SS SD Htol (fun _ => eq_refl) (fun _ => eq_refl) match_data_mk
      (S (length dat)) (b_rec_ind b) 0) as [[A B]|[A [l [B C]]]]; try lia.
    { unfold zlen. lia. }
    - left. split; [now apply Hs|]. unfold vort_pairs.
      rewrite set_rec_ind_same in B. exact B.
    - right. split; [intros D; apply A, Hs, D|]. exists l.
      rewrite set_rec_ind_same in B. split; [exact B|exact C].
  Qed.

  Lemma supermag_pairs_spec :
    (D /\ supermag_pairs b dat max_tol mn mx ks = Err TypeError) \/
    (~ D /\ exists l, supermag_pairs b dat max_tol mn mx ks = Ok l /\
       pairs_exactly (b_dtime b) dat (candidate G (b_records b) (b_rec_ind b))
         (max_tol * usec) l).
  Proof.
    pose proof dat_pos as Hn.
    assert (Htol : 0 <= max_tol * usec) by (unfold usec; lia).
    pose proof (stuck_disjoint (b_records b) (b_dtime b) dat (max_tol * usec) G (b_rec_ind b) Hr Hn) as Hs.
    destruct (supermag_loop_spec (b_records b) (b_dtime b) (next_rec b mn mx ks) dat (max_tol * usec) G
      boundary b_records b_rec_ind (fun b i => match_data_ocb b dat i max_tol mn mx ks)
      (set_rec_ind b) ltac:(apply W) (next_rec_cycle' b mn mx ks W WC) (good_in b mn mx ks)
      SS SD Htol (fun _ => eq_refl) (fun _ => eq_refl) match_data_mk
      (S (length dat)) (b_rec_ind b) 0) as [[A B]|[A [l [B C]]]]; try lia.
    { unfold zlen. lia. }
    - left. split; [now apply Hs|]. unfold supermag_pairs.
      rewrite set_rec_ind_same in B. exact B.
    - right. split; [intros D; apply A, Hs, D|]. exists l.
      rewrite set_rec_ind_same in B. split; [exact B|exact C].
  Qed.
End Pairs.
