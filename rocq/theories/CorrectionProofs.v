(** Proofs about the boundary corrections. *)
From Coq Require Import String Ascii Reals ZArith List Bool Lra Lia.
From Verif Require Import PyBase PyString RangeModel RangeSpec RangeProofs CoordProofs CorrectionModel CorrectionSpec.
Import ListNotations.
Open Scope R_scope.

(** ** Names *)
Lemma lower_char_spec a b : (nat_of_ascii b < 65 \/ 90 < nat_of_ascii b)%nat -> lower_char a = b <-> letter_case a b.
Proof.
  intros H. unfold lower_char, letter_case.
  destruct (Nat.leb_spec 65 (nat_of_ascii a)) as [E1|E1]; destruct (Nat.leb_spec (nat_of_ascii a) 90) as [E2|E2]; cbn [andb].
  - split.
    + intros <-. right. split; [lia|]. apply nat_ascii_embedding. lia.
    + intros [-> | [_ E]]; [lia|]. rewrite <- E. apply ascii_nat_embedding.
  - split; [auto|]. intros [H'|[? ?]]; [exact H'|lia].
  - split; [auto|]. intros [H'|[? ?]]; [exact H'|lia].
  - split; [auto|]. intros [H'|[? ?]]; [exact H'|lia].
Qed.

Fixpoint no_upper (s : string) : Prop :=
  match s with EmptyString => True | String c t => (nat_of_ascii c < 65 \/ 90 < nat_of_ascii c)%nat /\ no_upper t end.

Lemma lower_any_case s t : no_upper t -> lower s = t <-> any_case s t.
Proof.
  revert t. induction s as [|a s IH]; intros [|b t] H; cbn [lower].
  - split; [constructor|reflexivity].
  - split; [discriminate|intros A; inversion A].
  - split; [discriminate|intros A; inversion A].
  - destruct H as [H1 H2]. split.
    + intros E. injection E as E1 E2. constructor; [apply lower_char_spec; auto|apply IH; auto].
    + intros A. inversion A as [|? ? ? ? L R]; subst. f_equal; [apply lower_char_spec; auto|apply IH; auto].
Qed.

(** ** Angles *)
Lemma hr2rad_angle m : exists t k, hr2rad (Some m) (2 * PI) = Ok (Some t) /\ t = mlt_angle m + IZR k * (2 * PI).
Proof.
  destruct (hr2rad_spec m (2 * PI)) as (t & E & _ & (k & K)). exists t, k. split; [exact E|exact K].
Qed.
Lemma cos_turns x n k : cos (x + IZR n * (IZR k * (2 * PI))) = cos x.
Proof. rewrite <- Rmult_assoc, <- mult_IZR. apply cos_shift. Qed.
Lemma sin_turns x n k : sin (x + IZR n * (IZR k * (2 * PI))) = sin x.
Proof. rewrite <- Rmult_assoc, <- mult_IZR. apply sin_shift. Qed.

(** ** The ellipse *)
Lemma ellipse_names m c : assoc (lower m) ellipse_coeff = Some c ->
  (any_case m "median" /\ c = mkEllipse 4.01 0.55 (-0.92)) \/ (any_case m "gaussian" /\ c = mkEllipse 4.41 0.51 (-0.95)).
Proof.
  unfold ellipse_coeff, assoc. destruct (String.eqb_spec (lower m) "median") as [E|E].
  - intros H. injection H as <-. left. split; [|reflexivity]. apply lower_any_case; [cbn; lia|exact E].
  - destruct (String.eqb_spec (lower m) "gaussian") as [E2|E2]; [|discriminate].
    intros H. injection H as <-. right. split; [|reflexivity]. apply lower_any_case; [cbn; lia|exact E2].
Qed.
Lemma ellipse_none m : assoc (lower m) ellipse_coeff = None <-> ~ any_case m "median" /\ ~ any_case m "gaussian".
Proof.
  rewrite <- !lower_any_case by (cbn; lia). unfold ellipse_coeff, assoc.
  destruct (String.eqb_spec (lower m) "median"); [split; [discriminate|tauto]|].
  destruct (String.eqb_spec (lower m) "gaussian"); [split; [discriminate|tauto]|]. tauto.
Qed.
Lemma elliptical_ok m i meth a e t : any_case i "ampere" ->
  any_case meth "median" /\ (a, e, t) = (4.01, 0.55, -0.92) \/ any_case meth "gaussian" /\ (a, e, t) = (4.41, 0.51, -0.95) ->
  elliptical (Some m) i meth = Ok (Some (- focal_distance a e t (mlt_angle m))).
Proof.
  intros I M. apply lower_any_case in I; [|cbn; lia].
  assert (A : assoc (lower meth) ellipse_coeff = Some (mkEllipse a e t)).
  { destruct M as [[M E]|[M E]]; apply lower_any_case in M; try (cbn; lia); rewrite M; cbn; injection E as -> -> ->; reflexivity. }
  unfold elliptical. rewrite I, A. cbn [String.eqb Ascii.eqb Bool.eqb negb].
  destruct (hr2rad_angle m) as (th & k & -> & ->). cbn [bind fmap option_map el_a el_e el_t]. unfold focal_distance.
  replace (mlt_angle m + IZR k * (2 * PI) - t) with (mlt_angle m - t + IZR k * (2 * PI)) by ring. rewrite cos_shift. reflexivity.
Qed.
Lemma elliptical_nan i meth : any_case i "ampere" -> any_case meth "median" \/ any_case meth "gaussian" ->
  elliptical None i meth = Ok None.
Proof.
  intros I M. apply lower_any_case in I; [|cbn; lia]. unfold elliptical. rewrite I.
  cbn [String.eqb Ascii.eqb Bool.eqb negb].
  destruct M as [M|M]; apply lower_any_case in M; try (cbn; lia); rewrite M; cbn [ellipse_coeff assoc String.eqb Ascii.eqb Bool.eqb];
    rewrite hr2rad_none; reflexivity.
Qed.
Lemma elliptical_err m i meth : (~ any_case i "ampere" \/ ~ any_case meth "median" /\ ~ any_case meth "gaussian") ->
  elliptical m i meth = Err ValueError.
Proof.
  intros H. unfold elliptical. destruct (String.eqb_spec (lower i) "ampere") as [E|E]; cbn [negb]; [|reflexivity].
  destruct H as [H|H].
  - exfalso. apply H. apply lower_any_case; [cbn; lia|exact E].
  - rewrite (proj2 (ellipse_none meth) H). reflexivity.
Qed.

Lemma focal_range a e t th : 0 < a -> 0 < e < 1 -> 0 < 1 + e * cos (th - t) /\ a * (1 - e) <= focal_distance a e t th <= a * (1 + e).
Proof.
  intros A E. pose proof (COS_bound (th - t)) as [C1 C2]. unfold focal_distance. set (c := cos (th - t)) in *.
  assert (D : 0 < 1 + e * c) by nra. split; [exact D|].
  assert (F : a * (1 - e ^ 2) / (1 + e * c) * (1 + e * c) = a * (1 - e ^ 2)) by (field; lra).
  set (f := a * (1 - e ^ 2) / (1 + e * c)) in *. split; apply (Rmult_le_reg_r (1 + e * c)); try exact D; rewrite F.
  - assert (0 <= a * (1 - e) * (e * (1 - c))) by (apply Rmult_le_pos; apply Rmult_le_pos; lra). nra.
  - assert (0 <= a * (1 + e) * (e * (1 + c))) by (apply Rmult_le_pos; apply Rmult_le_pos; lra). nra.
Qed.

(** ** The harmonics *)
Fixpoint pad (n : nat) (l : list (R * R * R * R)) : list (R * R * R * R) :=
  match n, l with
  | O, _ => []
  | S n', x :: l' => x :: pad n' l'
  | S n', [] => (0, 1, 0, 1) :: pad n' []
  end.
Definition flat (c0 : R) (l : list (R * R * R * R)) : list R :=
  c0 :: flat_map (fun '(c, p, s, q) => [c; p; s; q]) (pad 3 l).

Lemma harmonic_tables i meth c : (exists tb, assoc (lower i) harmonic_coeff = Some tb /\ assoc (lower meth) tb = Some c) <->
  exists ni nm c0 l, In (ni, nm, c0, l) published /\ any_case i ni /\ any_case meth nm /\ c = flat c0 l.
Proof.
  split.
  - intros (tb & A & B). unfold harmonic_coeff in A. cbn [assoc] in A.
    repeat match type of A with context [String.eqb (lower i) ?s] => destruct (String.eqb_spec (lower i) s) as [?E|?]; [injection A as <-|] end;
      try discriminate A; cbn [assoc] in B;
      repeat match type of B with context [String.eqb (lower meth) ?s] => destruct (String.eqb_spec (lower meth) s) as [?E|?]; [injection B as <-|] end;
      try discriminate B;
      match goal with E1 : lower i = ?a, E2 : lower meth = ?b |- _ =>
        exists a, b; eexists; eexists; split; [cbn [published In]; eauto 12|];
        split; [apply lower_any_case; [cbn; lia|exact E1]|]; split; [apply lower_any_case; [cbn; lia|exact E2]|]; reflexivity end.
  - intros (ni & nm & c0 & l & H & A & B & ->). cbn [published In] in H.
    repeat (destruct H as [H|H]; [injection H as <- <- <- <-; apply lower_any_case in A; [|cbn; lia]; apply lower_any_case in B; [|cbn; lia];
      rewrite A, B; cbn [harmonic_coeff assoc String.eqb Ascii.eqb Bool.eqb]; eexists; split; [reflexivity|]; reflexivity|]).
    destruct H.
Qed.
Lemma pad_sum n l th : (length l <= 3)%nat ->
  n + (let c := flat 0 l in coef c 1 * cos (th + coef c 2) + coef c 3 * sin (th + coef c 4)
     + coef c 5 * cos (2 * (th + coef c 6)) + coef c 7 * sin (2 * (th + coef c 8))
     + coef c 9 * cos (3 * (th + coef c 10)) + coef c 11 * sin (3 * (th + coef c 12))) = harmonics n l th.
Proof.
  intros H. unfold harmonics. destruct l as [|[[[? ?] ?] ?] [|[[[? ?] ?] ?] [|[[[? ?] ?] ?] [|]]]]; cbn in H; try lia; cbn;
  repeat rewrite Rmult_1_l; replace (1 + 1) with 2 by ring; replace (2 + 1) with 3 by ring; ring.
Qed.
Lemma published_short ni nm c0 l : In (ni, nm, c0, l) published -> (length l <= 3)%nat.
Proof.
  cbn [published In]. intros H. repeat (destruct H as [H|H]; [injection H as <- <- <- <-; cbn; lia|]). destruct H.
Qed.
Lemma harmonic_ok m i meth ni nm c0 l : In (ni, nm, c0, l) published -> any_case i ni -> any_case meth nm ->
  harmonic (Some m) i meth = Ok (Some (- harmonics c0 l (mlt_angle m))) /\ harmonic None i meth = Ok None.
Proof.
  intros P A B. destruct (proj2 (harmonic_tables i meth (flat c0 l))) as (tb & T1 & T2).
  { exists ni, nm, c0, l. auto. }
  unfold harmonic. rewrite T1, T2. rewrite hr2rad_none. split; [|reflexivity].
  destruct (hr2rad_angle m) as (th & k & -> & ->). cbn [bind fmap option_map].
  rewrite <- (pad_sum c0 l (mlt_angle m) (published_short _ _ _ _ P)).
  set (c := flat c0 l). assert (C : forall j, (1 <= j)%nat -> coef c j = coef (flat 0 l) j).
  { intros [|j] J; [lia|]. reflexivity. }
  cbv zeta. change (coef c 0) with c0. rewrite !C by lia.
  set (d := flat 0 l).
  assert (T : forall n p, cos (IZR n * (mlt_angle m + IZR k * (2 * PI) + p)) = cos (IZR n * (mlt_angle m + p)) /\
                          sin (IZR n * (mlt_angle m + IZR k * (2 * PI) + p)) = sin (IZR n * (mlt_angle m + p))).
  { intros n p. replace (IZR n * (mlt_angle m + IZR k * (2 * PI) + p)) with (IZR n * (mlt_angle m + p) + IZR n * (IZR k * (2 * PI))) by ring.
    split; [apply cos_turns|apply sin_turns]. }
  rewrite (proj1 (T 2%Z _)), (proj2 (T 2%Z _)), (proj1 (T 3%Z _)), (proj2 (T 3%Z _)).
  pose proof (proj1 (T 1%Z (coef d 2))) as T1'. pose proof (proj2 (T 1%Z (coef d 4))) as T1''. rewrite !Rmult_1_l in T1', T1''.
  rewrite T1', T1''. do 2 apply f_equal. ring.
Qed.
Lemma harmonic_err m i meth : (forall ni nm c0 l, In (ni, nm, c0, l) published -> any_case i ni -> any_case meth nm -> False) ->
  harmonic m i meth = Err ValueError.
Proof.
  intros H. unfold harmonic. destruct (assoc (lower i) harmonic_coeff) as [tb|] eqn:E1; [|reflexivity].
  destruct (assoc (lower meth) tb) as [c|] eqn:E2; [|reflexivity]. exfalso.
  destruct (proj1 (harmonic_tables i meth c)) as (ni & nm & c0 & l & P & A & B & _); [eauto|]. exact (H _ _ _ _ P A B).
Qed.

Lemma amplitude_term c s a b : Rabs (c * cos a + s * sin b) <= Rabs c + Rabs s.
Proof.
  eapply Rle_trans; [apply Rabs_triang|]. rewrite !Rabs_mult.
  pose proof (COS_bound a). pose proof (SIN_bound b). pose proof (Rabs_pos c). pose proof (Rabs_pos s).
  assert (Rabs (cos a) <= 1) by (apply Rabs_le; lra). assert (Rabs (sin b) <= 1) by (apply Rabs_le; lra).
  pose proof (Rabs_pos (cos a)). pose proof (Rabs_pos (sin b)). nra.
Qed.
Lemma harmonics_range c0 l th : Rabs (harmonics c0 l th - c0) <= total_amplitude l.
Proof.
  unfold harmonics. match goal with |- Rabs (c0 + ?f 1 l - c0) <= _ => set (sum := f); replace (c0 + sum 1 l - c0) with (sum 1 l) by ring end.
  generalize 1 at 1. induction l as [|[[[c p] s] q] l IH]; intros n.
  - cbn. rewrite Rabs_R0. lra.
  - cbn [total_amplitude fold_right]. change (sum n ((c, p, s, q) :: l)) with (c * cos (n * (th + p)) + s * sin (n * (th + q)) + sum (n + 1) l).
    eapply Rle_trans; [apply Rabs_triang|]. apply Rplus_le_compat; [apply amplitude_term|apply IH].
Qed.
