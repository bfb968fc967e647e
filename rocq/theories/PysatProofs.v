(** Lemmas about PysatModel: names, hemispheres, samples and output. *)
From Coq Require Import String Ascii ZArith QArith List Bool Sorted Lia Lqa.
From Verif Require Import PyBase TimeModel FilesModel FilesProofs SmagModel CycleModel CycleSpec CycleProofs DriverModel DriverSpec PysatModel PysatSpec.
Import ListNotations.
Open Scope string_scope.
Open Scope list_scope.
Open Scope Z_scope.

(** ** Text *)
Lemma mentions_spec w s : contains w s = true <-> mentions w s.
Proof. apply contains_spec. Qed.
Lemma begins_spec w s : prefix w s = true <-> begins w s.
Proof. apply prefix_spec. Qed.
Lemma find_none w s : find w s = None <-> ~ mentions w s.
Proof. rewrite <- mentions_spec. unfold contains. destruct (find w s); split; intros H; congruence. Qed.
Lemma find_zero w s : find w s = Some O <-> begins w s.
Proof.
  rewrite <- begins_spec. destruct s as [|c s]; cbn [find]; destruct (prefix w _); split; intros H; try congruence.
  destruct (find w s); discriminate.
Qed.
Lemma find_later w s : (exists n, find w s = Some (S n)) <-> mentions w s /\ ~ begins w s.
Proof.
  rewrite <- find_zero, <- mentions_spec. unfold contains. destruct (find w s) as [[|n]|]; split.
  - intros [n H]. discriminate.
  - intros [_ H]. exfalso. apply H. reflexivity.
  - intros _. split; [reflexivity|discriminate].
  - intros _. exists n. reflexivity.
  - intros [n H]. discriminate.
  - intros [H _]. discriminate.
Qed.
Lemma lowers_spec s t : lower_case s t <-> t = lowers s.
Proof.
  assert (A : forall a b, nat_of_ascii b = (if (65 <=? nat_of_ascii a)%nat && (nat_of_ascii a <=? 90)%nat then (nat_of_ascii a + 32)%nat else nat_of_ascii a) <-> b = PyString.lower_char a).
  { intros a b. unfold PyString.lower_char. destruct ((65 <=? nat_of_ascii a)%nat && (nat_of_ascii a <=? 90)%nat) eqn:E.
    - apply andb_true_iff in E. destruct E as [E1 E2]. apply Nat.leb_le in E1, E2. split; intros H.
      + rewrite <- (ascii_nat_embedding b), H. reflexivity.
      + rewrite H. apply nat_ascii_embedding. lia.
    - split; intros H; [|congruence]. rewrite <- (ascii_nat_embedding b), H. apply ascii_nat_embedding. }
  unfold lower_case, lowers. split.
  - intros F. induction F as [|a b s t H F IH]; [reflexivity|]. cbn [map]. f_equal; [|exact IH]. apply A. exact H.
  - intros ->. induction s as [|a s IH]; [constructor|]. cbn [map]. constructor; [|exact IH]. apply A. reflexivity.
Qed.
Lemma last_split f p : file_part f p -> base_name f = p.
Proof.
  assert (N : forall p, ~ In "/"%char p -> split "/" p = [p]).
  { clear. induction p as [|c p IH]; intros H; [reflexivity|]. cbn [split]. destruct (Ascii.eqb c "/") eqn:E.
    - apply Ascii.eqb_eq in E. exfalso. apply H. left. exact E.
    - rewrite IH; [reflexivity|]. intros I. apply H. right. exact I. }
  assert (NE : forall s, split "/" s <> []).
  { clear. induction s as [|c s IH]; [discriminate|]. cbn [split]. destruct (Ascii.eqb c "/"); [discriminate|]. destruct (split "/" s); discriminate. }
  intros [H [->|[d ->]]]; unfold base_name; [rewrite (N p H); reflexivity|].
  induction d as [|c d IH].
  - cbn [app split Ascii.eqb]. rewrite (N p H). reflexivity.
  - cbn [app split]. destruct (Ascii.eqb c "/").
    + destruct (split "/" (d ++ "/"%char :: p)) eqn:E; [exfalso; exact (NE _ E)|exact IH].
    + revert IH. destruct (split "/" (d ++ "/"%char :: p)) as [|q [|q' t]] eqn:E; [exfalso; exact (NE _ E)| |intros IH; exact IH].
      intros _. exfalso. clear -E NE. revert q E. induction d as [|a d IH]; intros q E.
      * cbn [app split Ascii.eqb] in E. destruct (split "/" p) eqn:F; [exact (NE _ F)|]. cbn in E. discriminate.
      * cbn [app split] in E. destruct (Ascii.eqb a "/").
        { destruct (split "/" (d ++ "/"%char :: p)) eqn:F; [exact (NE _ F)|discriminate]. }
        destruct (split "/" (d ++ "/"%char :: p)) as [|q' t'] eqn:F; [exact (NE _ F)|]. injection E as _ Et. subst t'. exact (IH _ eq_refl).
Qed.

(** ** Hemispheres *)
Lemma nsign_north x : neqb (nsign x) (Fin 1) = true <-> on North x.
Proof.
  destruct x as [| |q|]; cbn; try tauto; try (split; [discriminate|intros H; discriminate]).
  destruct (Qeq_bool q 0) eqn:E.
  - apply Qeq_bool_iff in E. assert (L : Qle_bool q 0 = true) by (apply Qle_bool_iff; rewrite E; apply Qle_refl). rewrite L. split; discriminate.
  - apply Qeq_bool_neq in E. destruct (Qle_bool 0 q) eqn:L.
    + apply Qle_bool_iff in L. split; [intros _|reflexivity]. destruct (Qle_bool q 0) eqn:M; [|reflexivity]. apply Qle_bool_iff in M. exfalso. apply E. apply Qle_antisym; assumption.
    + split; [discriminate|]. intros H. exfalso. destruct (Qle_bool q 0) eqn:M; [discriminate|].
      assert (A : ~ (q <= 0)%Q) by (intros X; apply Qle_bool_iff in X; congruence). assert (B : ~ (0 <= q)%Q) by (intros X; apply Qle_bool_iff in X; congruence). lra.
Qed.
Lemma nsign_south x : neqb (nsign x) (Fin (-1)) = true <-> on South x.
Proof.
  destruct x as [| |q|]; cbn; try tauto; try (split; [discriminate|intros H; discriminate]).
  destruct (Qeq_bool q 0) eqn:E.
  - apply Qeq_bool_iff in E. assert (L : Qle_bool 0 q = true) by (apply Qle_bool_iff; rewrite E; apply Qle_refl). rewrite L. split; discriminate.
  - apply Qeq_bool_neq in E. destruct (Qle_bool 0 q) eqn:L; cbn; split; try discriminate; reflexivity.
Qed.
Lemma nsign_side h x : neqb (nsign x) (sign_of h) = true <-> on h x.
Proof. destruct h; [apply nsign_north|apply nsign_south]. Qed.
Lemma nsign_side' h x : on h x -> nsign x = sign_of h.
Proof.
  intros O. apply nsign_side in O. destruct x as [| |q|]; cbn in *; try destruct h; try discriminate; try reflexivity.
  all: destruct (Qeq_bool q 0); [discriminate|]; destruct (Qle_bool 0 q); try discriminate; reflexivity.
Qed.
Lemma nsign_zero x : nsign x = Fin 0 -> x <> NaN /\ ~ on North x /\ ~ on South x.
Proof.
  intros H. split; [intros ->; discriminate|]. split; intros O; apply nsign_side' in O; rewrite H in O; discriminate.
Qed.

(** The maximum and minimum of the values that are not NaN. *)
Lemma nlt_irr_trans : forall a b c, nlt a b = false -> nlt b c = false -> b <> NaN -> nlt a c = false.
Proof.
  intros [| |a|] [| |b|] [| |c|] A B N; cbn in *; try reflexivity; try discriminate; try (exfalso; apply N; reflexivity).
  apply negb_false_iff in A. apply negb_false_iff in B. apply negb_false_iff. apply Qle_bool_iff in A, B. apply Qle_bool_iff. eapply Qle_trans; eassumption.
Qed.
Lemma nlt_irr a : nlt a a = false.
Proof. destruct a as [| |a|]; cbn; try reflexivity. apply negb_false_iff. apply Qle_bool_iff. apply Qle_refl. Qed.
Lemma nlt_asym a b : nlt a b = true -> nlt b a = false.
Proof.
  destruct a as [| |a|], b as [| |b|]; cbn; try reflexivity; try discriminate. rewrite negb_true_iff, negb_false_iff. intros H. apply Qle_bool_iff.
  destruct (Qlt_le_dec b a) as [L|L]; [|exact L]. exfalso. assert (X : Qle_bool b a = true) by (apply Qle_bool_iff; apply Qlt_le_weak; exact L). congruence.
Qed.
Lemma pick_spec (better : num -> num -> bool) l : forall a,
  let m := fold_left (pick better) l a in
  (m = a \/ In m l) /\ (m = NaN -> a = NaN /\ forall x, In x l -> x = NaN).
Proof.
  induction l as [|x l IH]; intros a; cbn [fold_left].
  - split; [left; reflexivity|]. intros E. split; [exact E|]. intros x [].
  - destruct (IH (pick better a x)) as [A B]. split.
    + destruct A as [A|A]; [|right; right; exact A]. rewrite A. unfold pick. destruct a, x; cbn; try (right; left; reflexivity); try (left; reflexivity).
      all: match goal with |- context [if ?c then _ else _] => destruct c end; [right; left; reflexivity|left; reflexivity].
    + intros E. destruct (B E) as [C D]. unfold pick in C.
      assert (K : a = NaN /\ x = NaN).
      { destruct a, x; cbn in C; try (split; congruence).
        all: match type of C with context [if ?c then _ else _] => destruct c end; discriminate. }
      destruct K as [-> ->]. split; [reflexivity|]. intros y [<-|I]; [reflexivity|exact (D y I)].
Qed.
Lemma num_eq_nan (a : num) : a = NaN \/ a <> NaN.
Proof. destruct a; [left; reflexivity| right; discriminate ..]. Qed.
Lemma pick_best (better : num -> num -> bool) l : (forall a, better a a = false) -> (forall a b, better a b = true -> better b a = false) ->
  (forall a b c, better a b = false -> better b c = false -> b <> NaN -> better a c = false) ->
  (forall a, better NaN a = false) -> forall a,
  let m := fold_left (pick better) l a in better a m = false /\ forall x, In x l -> better x m = false.
Proof.
  intros IR AS TR NN. induction l as [|x l IH]; intros a; cbn [fold_left].
  - split; [apply IR|]. intros x [].
  - destruct (IH (pick better a x)) as [A B]. destruct (pick_spec better l (pick better a x)) as [_ Z].
    set (m := fold_left (pick better) l (pick better a x)) in *.
    assert (K : better a m = false /\ better x m = false).
    { destruct (num_eq_nan a) as [->|Na]; [split; [apply NN|exact A]|].
      destruct (num_eq_nan x) as [->|Nx]; [split; [|apply NN]; destruct a; cbn in A; try exact A; congruence|].
      assert (P : pick better a x = if better x a then x else a) by (destruct a, x; try reflexivity; congruence).
      rewrite P in A. destruct (better x a) eqn:E.
      - split; [|exact A]. eapply TR; [|exact A|exact Nx]. apply AS. exact E.
      - split; [exact A|]. eapply TR; [exact E|exact A|exact Na]. }
    split; [apply K|]. intros y [<-|I]; [apply K|exact (B y I)].
Qed.
Lemma nanmax_spec l : (nanmax l = NaN -> forall x, In x l -> x = NaN) /\ (nanmax l = NaN \/ In (nanmax l) l) /\ forall x, In x l -> nlt (nanmax l) x = false.
Proof.
  unfold nanmax. destruct (pick_spec (fun b a => nlt a b) l NaN) as [A B]. split; [intros E; apply B; exact E|]. split; [exact A|].
  apply (pick_best (fun b a => nlt a b)).
  - apply nlt_irr.
  - intros a b. apply nlt_asym.
  - intros a b c X Y N. exact (nlt_irr_trans _ _ _ Y X N).
  - intros [| | |]; reflexivity.
Qed.
Lemma nanmin_spec l : (nanmin l = NaN -> forall x, In x l -> x = NaN) /\ (nanmin l = NaN \/ In (nanmin l) l) /\ forall x, In x l -> nlt x (nanmin l) = false.
Proof.
  unfold nanmin. destruct (pick_spec nlt l NaN) as [A B]. split; [intros E; apply B; exact E|]. split; [exact A|].
  apply (pick_best nlt).
  - apply nlt_irr.
  - intros a b. apply nlt_asym.
  - intros a b c X Y N. exact (nlt_irr_trans _ _ _ X Y N).
  - reflexivity.
Qed.
Lemma finite_max vs : nfinite (nanmax vs) = true <-> some_value vs.
Proof.
  destruct (nanmax_spec vs) as (A & B & C). unfold some_value. split.
  - intros F. destruct (nanmax vs) as [| |q|] eqn:E; try discriminate. split.
    + exists q. destruct B as [B|B]; [discriminate|exact B].
    + intros I. specialize (C _ I). discriminate.
  - intros [[q I] N]. destruct (nanmax vs) as [| |q'|] eqn:E; try reflexivity.
    + discriminate (A eq_refl _ I).
    + discriminate (C _ I).
    + destruct B as [B|B]; [discriminate|contradiction].
Qed.
Lemma pandas_keep_spec h lat vs : pandas_keep (sign_of h) (lat, vs) = true <-> on h lat /\ some_value vs.
Proof. unfold pandas_keep. cbn [fst snd]. rewrite andb_true_iff, nsign_side, finite_max. reflexivity. Qed.
Lemma xarray_keep_north lat vs : xarray_keep (sign_of North) (lat, vs) = true <-> on North lat /\ some_value vs.
Proof.
  unfold xarray_keep. cbn [fst snd sign_of]. rewrite finite_max.
  assert (E : nle (Fin 1) (nsign lat) = true <-> on North lat).
  { destruct lat as [| |q|]; cbn; try (split; discriminate); try tauto. destruct (Qeq_bool q 0) eqn:Z.
    - apply Qeq_bool_iff in Z. assert (L : Qle_bool q 0 = true) by (apply Qle_bool_iff; rewrite Z; apply Qle_refl). rewrite L. split; discriminate.
    - apply Qeq_bool_neq in Z. destruct (Qle_bool 0 q) eqn:L.
      + apply Qle_bool_iff in L. split; [intros _|reflexivity]. destruct (Qle_bool q 0) eqn:M; [|reflexivity]. apply Qle_bool_iff in M. exfalso. apply Z. apply Qle_antisym; assumption.
      + split; [discriminate|]. intros H. exfalso. destruct (Qle_bool q 0) eqn:M; [discriminate|].
        assert (A : ~ (q <= 0)%Q) by (intros X; apply Qle_bool_iff in X; congruence). assert (B : ~ (0 <= q)%Q) by (intros X; apply Qle_bool_iff in X; congruence). lra. }
  destruct (nle (Fin 1) (nsign lat)) eqn:F.
  - split; [intros S; split; [apply E; reflexivity|exact S]|intros [_ S]; exact S].
  - split; [|intros [O _]; apply E in O; discriminate]. intros [[q I] _]. apply in_map_iff in I. destruct I as (x & X & _). discriminate.
Qed.
Lemma xarray_keep_south lat vs : lat <> NaN -> xarray_keep (sign_of South) (lat, vs) = true <-> some_value vs.
Proof.
  intros N. unfold xarray_keep. cbn [fst snd sign_of].
  assert (E : nle (Fin (-1)) (nsign lat) = true).
  { destruct lat as [| |q|]; cbn; try reflexivity; [congruence|]. destruct (Qeq_bool q 0); [reflexivity|]. destruct (Qle_bool 0 q); reflexivity. }
  rewrite E. apply finite_max.
Qed.

(** ** The chosen samples *)
Lemma where_spec m : forall i, StronglySorted Z.lt (where_from i m) /\ forall k, In k (where_from i m) <-> i <= k /\ nth_error m (Z.to_nat (k - i)) = Some true.
Proof.
  induction m as [|b m IH]; intros i; cbn [where_from].
  - split; [constructor|]. intros k. split; [intros []|]. intros [_ H]. destruct (Z.to_nat (k - i)); discriminate.
  - destruct (IH (i + 1)) as [S H].
    assert (K : forall k, i < k -> nth_error (b :: m) (Z.to_nat (k - i)) = nth_error m (Z.to_nat (k - (i + 1)))).
    { intros k L. replace (Z.to_nat (k - i)) with (Datatypes.S (Z.to_nat (k - (i + 1)))) by lia. reflexivity. }
    destruct b.
    + split.
      * constructor; [exact S|]. apply Forall_forall. intros k I. apply H in I. lia.
      * intros k. cbn [In]. split.
        -- intros [<-|I]; [rewrite Z.sub_diag; split; [lia|reflexivity]|]. apply H in I. destruct I as [L E]. split; [lia|]. rewrite K by lia. exact E.
        -- intros [L E]. destruct (Z.eq_dec i k) as [->|N]; [left; reflexivity|]. right. apply H. rewrite K in E by lia. split; [lia|exact E].
    + split; [exact S|]. intros k. rewrite H. split; intros [L E].
      * split; [lia|]. rewrite K by lia. exact E.
      * destruct (Z.eq_dec i k) as [->|N]; [rewrite Z.sub_diag in E; discriminate|]. rewrite K in E by lia. split; [lia|exact E].
Qed.
Lemma put_at_spec {A} (a : A) l : forall i j, (i < length l)%nat -> nth_error (put_at i a l) j = if (j =? i)%nat then Some a else nth_error l j.
Proof.
  induction l as [|b l IH]; intros i j L; [cbn [length] in L; lia|]. destruct i as [|i], j as [|j]; cbn [put_at nth_error Nat.eqb]; try reflexivity. apply IH. cbn [length] in L. lia.
Qed.
Lemma put_at_length {A} (a : A) l : forall i, length (put_at i a l) = length l.
Proof. induction l as [|b l IH]; intros [|i]; cbn [put_at length]; try reflexivity. rewrite IH. reflexivity. Qed.

Lemma py_get_some {A} (l : list A) i : 0 <= i < zlen l -> exists a, py_get l i = Some a /\ nth_error l (Z.to_nat i) = Some a.
Proof.
  intros H. rewrite py_get_in by exact H. destruct (nth_error l (Z.to_nat i)) as [a|] eqn:E; [exists a; split; reflexivity|].
  apply nth_error_None in E. unfold zlen in H. lia.
Qed.
Section Fill.
Context {V R : Type} (conv : R -> Z -> V).
Lemma fill_length uind : forall pairs out, length (fill conv uind pairs out) = length out.
Proof. induction pairs as [|[i r] t IH]; intros out; [reflexivity|]. cbn [fill]. rewrite IH. destruct (py_get uind i); [apply put_at_length|reflexivity]. Qed.
Lemma fill_spec uind (US : StronglySorted Z.lt uind) : forall pairs out,
  StronglySorted Z.lt (map fst pairs) -> (forall i (r : R), In (i, r) pairs -> 0 <= i < zlen uind) ->
  (forall u, In u uind -> 0 <= u < zlen out) -> forall s,
  (forall i r, In (i, r) pairs -> py_get uind i = Some (Z.of_nat s) -> nth_error (fill conv uind pairs out) s = Some (Some (conv r (Z.of_nat s)))) /\
  ((forall i r, In (i, r) pairs -> py_get uind i <> Some (Z.of_nat s)) -> nth_error (fill conv uind pairs out) s = nth_error out s).
Proof.
  induction pairs as [|[i r] t IH]; intros out S HR U s.
  - split; [intros i r []|]. intros _. reflexivity.
  - cbn [fill]. cbn [map fst] in S. apply StronglySorted_inv in S. destruct S as [S F].
    assert (Ri : 0 <= i < zlen uind) by (apply (HR i r); left; reflexivity).
    destruct (py_get_some uind i Ri) as (u & G & Nu). rewrite G.
    assert (Iu : In u uind) by (eapply nth_error_In; exact Nu). pose proof (U u Iu) as Ub.
    destruct (IH (put_at (Z.to_nat u) (Some (conv r u)) out)) with (s := s) as [A B].
    { exact S. } { intros i' r' I. apply (HR i' r'). right. exact I. } { intros u' I. unfold zlen. rewrite put_at_length. apply U. exact I. }
    rewrite Forall_forall in F.
    assert (INJ : forall i', py_get uind i' = Some u -> 0 <= i' < zlen uind -> i' = i).
    { intros i' G' R'. destruct (py_get_some uind i' R') as (u' & G'' & N'). assert (u' = u) by congruence. subst u'.
      assert (ND : NoDup uind).
      { clear -US. induction US as [|a l S IH' F]; [constructor|]. constructor; [|exact IH']. intros I. rewrite Forall_forall in F. specialize (F _ I). lia. }
      rewrite NoDup_nth_error in ND. assert (Z.to_nat i' = Z.to_nat i) by (apply ND; [unfold zlen in R'; lia|congruence]). lia. }
    split.
    + intros i' r' [E|I] Gs.
      * injection E as <- <-. rewrite B.
        -- rewrite put_at_spec by (unfold zlen in Ub; lia). assert (u = Z.of_nat s) by congruence. subst u. rewrite Nat2Z.id, Nat.eqb_refl. reflexivity.
        -- intros i' r' I' Gs'. assert (i' = i) by (apply INJ; [congruence|apply (HR i' r'); right; exact I']). subst i'.
           apply (in_map fst) in I'. specialize (F _ I'). cbn in F. lia.
      * apply (A i' r' I Gs).
    + intros N. rewrite B.
      * rewrite put_at_spec by (unfold zlen in Ub; lia). destruct (s =? Z.to_nat u)%nat eqn:E; [|reflexivity].
        apply Nat.eqb_eq in E. exfalso. apply (N i r); [left; reflexivity|]. rewrite G. f_equal. lia.
      * intros i' r' I. apply (N i' r'). right. exact I.
Qed.
End Fill.
