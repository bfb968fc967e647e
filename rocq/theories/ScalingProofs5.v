(** Kept attributes and repeated calls of the whole of [set_ocb]. *)
From Coq Require Import Reals ZArith List Bool Lia Lra.
From Verif Require Import PyBase RangeModel RangeSpec RangeProofs CoordModel CoordSpec CoordProofs CoordProofs2 DualCoordModel
  VectorModel VectorSpec VectorProofs VectorProofs2 ScalingModel ScalingProofs ScalingProofs2 ScalingSpec ScalingProofs3 ScalingProofs4.
Import ListNotations.
Open Scope R_scope.

Lemma at_rec_twice b i j : at_rec (at_rec b i) j = at_rec b j. Proof. reflexivity. Qed.
Lemma at_rec_with b i : at_rec b i = with_rind b i. Proof. reflexivity. Qed.
Lemma coords_of_at b i j v : coords_of (at_rec b i) j v = coords_of b j v. Proof. reflexivity. Qed.

Lemma coords_of_spec b ind v : exists ol om rc,
  normal_coord (with_rind b ind) (sc (w_lat v)) (sc (w_lt v)) = Ok (out true [ol], out true [om], out true [rc], [w_lat v]) /\
  coords_of b ind v = Ok (put_coord v (w_lat v) ol om rc).
Proof.
  destruct (normal_coord_one (at_rec b ind) true false true false false (w_lat v) (w_lt v)) as (l & m & c & zz & E1 & E2).
  exists l, m, c. split.
  - unfold sc. rewrite <- at_rec_with, E1. destruct (normal_coord_sc (at_rec b ind) (w_lat v) (w_lt v)) as (l' & m' & c' & E3 & _).
    unfold sc in E3. rewrite E1 in E3. now injection E3 as -> -> -> ->.
  - unfold coords_of. rewrite E2. reflexivity.
Qed.
Lemma coords_of_again b ind v v1 : coords_of b ind v = Ok v1 -> coords_of b ind v1 = Ok v1 /\ same_inputs v v1 /\ w_on v1 = w_on v /\ w_oe v1 = w_oe v /\ w_oz v1 = w_oz v.
Proof.
  intros H. destruct (coords_of_spec b ind v) as (ol & om & rc & E & E'). rewrite E' in H. injection H as <-.
  split; [|unfold same_inputs; cbn; auto 10].
  destruct (coords_of_spec b ind (put_coord v (w_lat v) ol om rc)) as (ol2 & om2 & rc2 & F & F'). cbn [put_coord w_lat w_lt] in F.
  rewrite E in F. injection F as <- <- <-. rewrite F'. reflexivity.
Qed.

Lemma no_coords_same vs vs' : Forall2 (fun v v' => same_coords v v') vs vs' -> no_coords vs' = no_coords vs.
Proof.
  intros F. unfold no_coords.
  rewrite (forallb_ext2 (fun v => isnan (w_olat v)) (fun v v' => same_coords v v') vs vs'), (forallb_ext2 (fun v => isnan (w_omlt v)) (fun v v' => same_coords v v') vs vs'),
    (forallb_ext2 (fun v => isnan (w_rc v)) (fun v v' => same_coords v v') vs vs'); try exact F; try reflexivity; intros v w (H1 & H2 & H3); congruence.
Qed.

Lemma finish1_at b i sf rc v : finish1 (at_rec b i) sf rc v = finish1 b sf rc v. Proof. reflexivity. Qed.
Lemma finish_at b i sf rcs vs : finish (at_rec b i) sf rcs vs = finish b sf rcs vs. Proof. reflexivity. Qed.

(** ** Scalars *)
Lemma set_ocb_inv b ind own arg v v' b' : set_ocb b ind own arg v = Ok (v', b') ->
  exists r0 v1, getE (recs b) (rind b) = Ok r0 /\ (if no_coords [v] then coords_of b ind v else Ok v) = Ok v1 /\
    b' = (if no_coords [v] then with_rind b ind else b) /\
    (if no_coords [v1] then v' = v1 else exists rc, getE (recs b) ind = Ok rc /\ finish1 b (choose_sf own arg) rc v1 = Ok v').
Proof.
  unfold set_ocb. destruct (getE (recs b) (rind b)) as [r0|e] eqn:E0; [|discriminate]. cbn [bind]. cbv zeta.
  destruct (if no_coords [v] then coords_of b ind v else Ok v) as [v1|e] eqn:E1; [|discriminate]. cbn [bind]. intros H.
  exists r0, v1. split; [reflexivity|]. split; [reflexivity|]. destruct (no_coords [v1]).
  - injection H as <- <-. auto.
  - destruct (getE (recs b) ind) as [rc|e]; [|discriminate]. cbn [bind] in H.
    destruct (finish1 b (choose_sf own arg) rc v1) as [v2|e] eqn:F; [|discriminate]. cbn [bind] in H. injection H as <- <-. split; [reflexivity|]. eauto.
Qed.

Lemma set_ocb_kept b ind own arg v v' b' : set_ocb b ind own arg v = Ok (v', b') -> same_inputs v v'.
Proof.
  intros H. destruct (set_ocb_inv _ _ _ _ _ _ _ H) as (r0 & v1 & _ & E1 & _ & E2).
  assert (S1 : same_inputs v v1).
  { destruct (no_coords [v]); [now apply coords_of_again in E1|]. injection E1 as <-. unfold same_inputs. auto. }
  destruct (no_coords [v1]).
  - now subst v'.
  - destruct E2 as (rc & _ & F). apply finish1_kept in F. destruct F as [F _]. unfold same_inputs in *. intuition congruence.
Qed.

Lemma set_ocb_again b ind own arg v v' b' r : getE (recs b) ind = Ok r -> set_ocb b ind own arg v = Ok (v', b') ->
  set_ocb b' ind own arg v' = Ok (v', b').
Proof.
  intros V H. destruct (set_ocb_inv _ _ _ _ _ _ _ H) as (r0 & v1 & E0 & E1 & EB & E2).
  assert (G : exists r', getE (recs b') (rind b') = Ok r') by (destruct (no_coords [v]); subst b'; cbn; eauto).
  assert (RB : recs b' = recs b) by (destruct (no_coords [v]); subst b'; reflexivity).
  assert (WB : with_rind b' ind = with_rind b ind) by (destruct (no_coords [v]); subst b'; reflexivity).
  destruct G as [r' G]. unfold set_ocb. rewrite G. cbn [bind]. cbv zeta. destruct (no_coords [v1]) eqn:N1.
  - subst v'. rewrite N1. destruct (no_coords [v]) eqn:N.
    + destruct (coords_of_again _ _ _ _ E1) as (A & _). subst b'. rewrite <- at_rec_with, coords_of_at, A. cbn [bind]. rewrite N1. reflexivity.
    + injection E1 as <-. congruence.
  - destruct E2 as (rc & E3 & F). destruct (finish1_kept _ _ _ _ _ F) as [_ SC].
    assert (N2 : no_coords [v'] = false) by (rewrite <- N1; apply no_coords_same; constructor; [exact SC|constructor]).
    rewrite N2. cbn [bind]. rewrite N2, RB, E3. cbn [bind].
    assert (FA : finish1 b' (choose_sf own arg) rc v' = Ok v').
    { pose proof (finish1_again _ _ _ _ _ F) as FA. destruct (no_coords [v]); subst b'; [rewrite <- at_rec_with, finish1_at|]; exact FA. }
    rewrite FA. reflexivity.
Qed.

(** ** One record for each vector *)
Lemma mapE_coords b inds vs vs1 : length inds = length vs -> mapE (fun p => coords_of b (fst p) (snd p)) (combine inds vs) = Ok vs1 ->
  Forall2 same_inputs vs vs1 /\ mapE (fun p => coords_of b (fst p) (snd p)) (combine inds vs1) = Ok vs1.
Proof.
  revert vs vs1. induction inds as [|i inds IH]; intros [|v vs] vs1 L H; try discriminate.
  - cbn in H. injection H as <-. split; [constructor|reflexivity].
  - cbn [combine mapE fst snd] in H. destruct (coords_of b i v) as [w|] eqn:E; [|discriminate]. cbn [bind] in H.
    destruct (mapE _ (combine inds vs)) as [ws|] eqn:E2; [|discriminate]. cbn [bind] in H. injection H as <-. cbn in L. injection L as L.
    destruct (IH _ _ L E2) as [I1 I2]. destruct (coords_of_again _ _ _ _ E) as (A & B & _). split; [now constructor|].
    cbn [combine mapE fst snd]. rewrite A. cbn [bind]. rewrite I2. reflexivity.
Qed.

Lemma matched_inv b inds own arg vs vs' b' : set_ocb_matched b inds own arg vs = Ok (vs', b') ->
  exists rcs vs1, mapE (getE (recs b)) inds = Ok rcs /\
    (if no_coords vs then mapE (fun p => coords_of b (fst p) (snd p)) (combine inds vs) else Ok vs) = Ok vs1 /\
    b' = (if no_coords vs then last_rec b inds else b) /\
    (if no_coords vs1 then vs' = vs1 else finish b (choose_sf own arg) rcs vs1 = Ok vs').
Proof.
  unfold set_ocb_matched. destruct (mapE (getE (recs b)) inds) as [rcs|e]; [|discriminate]. cbn [bind]. cbv zeta.
  destruct (if no_coords vs then _ else Ok vs) as [vs1|e] eqn:E1; [|discriminate]. cbn [bind]. intros H.
  exists rcs, vs1. split; [reflexivity|]. split; [reflexivity|]. destruct (no_coords vs1).
  - injection H as <- <-. auto.
  - destruct (finish b (choose_sf own arg) rcs vs1) as [v2|e] eqn:F; [|discriminate]. cbn [bind] in H. injection H as <- <-. auto.
Qed.
Lemma Forall2_length' {A B} (P : A -> B -> Prop) l l' : Forall2 P l l' -> length l = length l'.
Proof. induction 1; cbn; auto. Qed.

Lemma matched_kept b inds own arg vs vs' b' : length inds = length vs -> set_ocb_matched b inds own arg vs = Ok (vs', b') ->
  Forall2 same_inputs vs vs'.
Proof.
  intros L H. destruct (matched_inv _ _ _ _ _ _ _ H) as (rcs & vs1 & E0 & E1 & _ & E2).
  assert (S1 : Forall2 same_inputs vs vs1).
  { destruct (no_coords vs); [now apply mapE_coords in E1|]. injection E1 as <-. apply Forall2_refl. unfold same_inputs. auto. }
  destruct (no_coords vs1); [now subst vs'|]. apply finish_kept in E2.
  - eapply Forall2_trans'; [|exact S1|exact E2]. cbn beta. unfold same_inputs. intros x y z X [Y _]. intuition congruence.
  - rewrite (mapE_length _ _ _ E0), L. now apply Forall2_length' in S1.
Qed.

Lemma matched_again b inds own arg vs vs' b' : length inds = length vs -> set_ocb_matched b inds own arg vs = Ok (vs', b') ->
  set_ocb_matched b' inds own arg vs' = Ok (vs', b').
Proof.
  intros L H. destruct (matched_inv _ _ _ _ _ _ _ H) as (rcs & vs1 & E0 & E1 & EB & E2).
  assert (RB : recs b' = recs b) by (destruct (no_coords vs); subst b'; [rewrite last_rec_eq|]; reflexivity).
  assert (LB : last_rec b' inds = with_rind b' (last inds (rind b'))) by apply last_rec_eq.
  assert (S1 : Forall2 same_inputs vs vs1).
  { destruct (no_coords vs); [now apply mapE_coords in E1|]. injection E1 as <-. apply Forall2_refl. unfold same_inputs. auto. }
  unfold set_ocb_matched. rewrite RB, E0. cbn [bind]. cbv zeta. destruct (no_coords vs1) eqn:N1.
  - subst vs'. rewrite N1. destruct (no_coords vs) eqn:N.
    + destruct (mapE_coords _ _ _ _ L E1) as (_ & A). subst b'.
      assert (C : mapE (fun p => coords_of (last_rec b inds) (fst p) (snd p)) (combine inds vs1) = Ok vs1).
      { rewrite <- A. rewrite last_rec_eq. reflexivity. }
      rewrite C. cbn [bind]. rewrite N1. rewrite LB. apply f_equal. apply f_equal. rewrite last_rec_eq. unfold with_rind. cbn [CoordModel.hemi blat recs rind]. apply f_equal.
      clear. revert b. induction inds as [|i [|j l] IH]; intros b; [reflexivity|reflexivity|]. exact (IH b).
    + injection E1 as <-. congruence.
  - assert (LR : length rcs = length vs1) by (rewrite (mapE_length _ _ _ E0), L; now apply Forall2_length' in S1).
    pose proof (finish_kept _ _ _ _ _ LR E2) as K.
    assert (N2 : no_coords vs' = false) by (rewrite <- N1; apply no_coords_same; revert K; apply Forall2_imp; tauto).
    rewrite N2. cbn [bind]. rewrite N2.
    assert (FA : finish b' (choose_sf own arg) rcs vs' = Ok vs').
    { pose proof (finish_again _ _ _ _ _ LR E2) as FA. destruct (no_coords vs); subst b'; [rewrite last_rec_eq, <- at_rec_with, finish_at|]; exact FA. }
    rewrite FA. reflexivity.
Qed.

(** ** Several vectors, one record *)
Definition blanked (h : Z) (x x' : fl) : Prop := x' = x \/ x' = None /\ wrong_side h x = true.
Lemma check_again h l : exists r, check_side h (mkArr false false true l) = Ok r /\
  match r with
  | None => True
  | Some l' => check_side h (mkArr false false true l') = Ok (Some l') /\ Forall2 (blanked h) l l'
  end.
Proof.
  unfold check_side. cbn [el isint]. destruct (existsb (wrong_side h) l) eqn:EX.
  - destruct (forallb (wrong_side h) l) eqn:FA; [now exists None|]. eexists. split; [reflexivity|].
    set (f := fun v => if wrong_side h v then None else v).
    assert (W : forall v, wrong_side h (f v) = wrong_side h v) by (intros v; unfold f; destruct (wrong_side h v) eqn:Q; auto).
    assert (E1 : existsb (wrong_side h) (map f l) = existsb (wrong_side h) l) by (clear - W; induction l as [|v l IH]; cbn; [reflexivity|now rewrite W, IH]).
    assert (E2 : forallb (wrong_side h) (map f l) = forallb (wrong_side h) l) by (clear - W; induction l as [|v l IH]; cbn; [reflexivity|now rewrite W, IH]).
    split.
    + fold f. rewrite E1, E2, EX, FA. do 2 f_equal. rewrite map_map. apply map_ext. intros v. unfold f. destruct (wrong_side h v) eqn:Q; [reflexivity|now rewrite Q].
    + clear. induction l as [|v l IH]; constructor; [|exact IH]. unfold blanked, f. destruct (wrong_side h v) eqn:Q; auto.
  - eexists. split; [reflexivity|]. cbn [el isint]. rewrite EX. split; [reflexivity|]. apply Forall2_refl. now left.
Qed.
Lemma Forall2_blank_refl h l : Forall2 (blanked h) l l.
Proof. apply Forall2_refl. now left. Qed.
Lemma bc2_length {A B} (a : list A) (b : list B) ps : length a = length b -> bc2 a b = Ok ps -> length ps = length a.
Proof.
  intros L. destruct a as [|x [|y a]], b as [|u [|w b]]; try discriminate; cbn [bc2]; try (intros H; injection H as <-; reflexivity).
  rewrite L, Nat.eqb_refl. intros H. assert (ps = combine (x :: y :: a) (u :: w :: b)) as -> by congruence. rewrite combine_length. lia.
Qed.

Lemma normal_again b l m : length l = length m -> forall ol om rc l', normal_coord b (mkArr false false true l) (mkArr false false true m) = Ok (ol, om, rc, l') ->
  normal_coord b (mkArr false false true l') (mkArr false false true m) = Ok (ol, om, rc, l') /\
  Forall2 (blanked (CoordModel.hemi b)) l l' /\ length (el ol) = length l /\ length (el om) = length l /\ length (el rc) = length l.
Proof.
  intros L ol om rc l' H. unfold normal_coord in *. destruct (current b) as [r|].
  - destruct (check_again (CoordModel.hemi b) l) as (ck & E & K). rewrite E in H. cbn [bind el is0d isnd] in H. destruct ck as [lats|].
    + destruct K as [K1 K2]. destruct (bc2 lats m) as [ps|e] eqn:B; [|discriminate]. cbn [bind] in H.
      destruct (mapE _ ps) as [rs|e] eqn:M; [|discriminate]. cbn [bind] in H. injection H as <- <- <- <-.
      pose proof (Forall2_length' _ _ _ K2) as LL. pose proof (bc2_length lats m ps ltac:(congruence) B) as LP. pose proof (mapE_length _ _ _ M) as LM.
      split; [|split; [exact K2|cbn [out el]; rewrite !map_length; repeat split; congruence]].
      rewrite K1. cbn [bind el is0d isnd]. rewrite B. cbn [bind]. rewrite M. reflexivity.
    + injection H as <- <- <- <-. rewrite E. cbn [bind]. split; [reflexivity|]. split; [apply Forall2_blank_refl|].
      unfold all_nan, max_len. cbn [filter negb is0d map el fold_right out]. rewrite !repeat_length. lia.
  - injection H as <- <- <- <-. cbn [el]. split; [reflexivity|]. split; [apply Forall2_blank_refl|].
    unfold all_nan, max_len. cbn [filter negb is0d map el fold_right out]. rewrite !repeat_length. lia.
Qed.

Definition almost_inputs (h : Z) (v v' : vel) : Prop :=
  blanked h (w_lat v) (w_lat v') /\ w_lt v' = w_lt v /\ w_n v' = w_n v /\ w_e v' = w_e v /\ w_z v' = w_z v.
Lemma put_coords_spec h vs : forall lat ol om rc, Forall2 (blanked h) (map w_lat vs) lat -> length ol = length vs -> length om = length vs -> length rc = length vs ->
  Forall2 (almost_inputs h) vs (put_coords vs lat ol om rc) /\ map w_lat (put_coords vs lat ol om rc) = lat /\
  put_coords (put_coords vs lat ol om rc) lat ol om rc = put_coords vs lat ol om rc.
Proof.
  induction vs as [|v vs IH]; intros lat ol om rc F L1 L2 L3; inversion F as [|x a l l' B F']; subst.
  - repeat split; constructor.
  - destruct ol as [|o ol]; [discriminate|]. destruct om as [|p om]; [discriminate|]. destruct rc as [|q rc]; [discriminate|].
    cbn in L1, L2, L3. injection L1 as L1. injection L2 as L2. injection L3 as L3. destruct (IH _ _ _ _ F' L1 L2 L3) as (I1 & I2 & I3).
    cbn [put_coords map]. split; [|split].
    + constructor; [|exact I1]. unfold almost_inputs. cbn. auto.
    + cbn [put_coord w_lat]. now rewrite I2.
    + rewrite I3. reflexivity.
Qed.

Lemma array_inv b ind own arg vs vs' b' : set_ocb_array b ind own arg vs = Ok (vs', b') ->
  exists r0 vs1, getE (recs b) (rind b) = Ok r0 /\
    (if no_coords vs then
       exists ol om rc lat, normal_coord (at_rec b ind) (mkArr false false true (map w_lat vs)) (mkArr false false true (map w_lt vs)) = Ok (ol, om, rc, lat) /\
         vs1 = put_coords vs lat (el ol) (el om) (el rc)
     else vs1 = vs) /\
    b' = (if no_coords vs then at_rec b ind else b) /\
    (if no_coords vs1 then vs' = vs1 else exists rc, getE (recs b) ind = Ok rc /\ finish b (choose_sf own arg) (repeat rc (length vs1)) vs1 = Ok vs').
Proof.
  unfold set_ocb_array. destruct (getE (recs b) (rind b)) as [r0|e]; [|discriminate]. cbn [bind]. cbv zeta. destruct (no_coords vs).
  - destruct (normal_coord (at_rec b ind) _ _) as [[[[ol om] rc] lat]|e]; [|discriminate]. cbn [bind].
    intros H. exists r0, (put_coords vs lat (el ol) (el om) (el rc)). split; [reflexivity|]. split; [exists ol, om, rc, lat; auto|].
    destruct (no_coords (put_coords _ _ _ _ _)).
    + injection H as <- <-. auto.
    + destruct (getE (recs b) ind) as [r|e]; [|discriminate]. cbn [bind] in H. destruct (finish _ _ _ _) as [v2|e] eqn:F; [|discriminate]. cbn [bind] in H.
      injection H as <- <-. eauto.
  - cbn [bind]. intros H. exists r0, vs. split; [reflexivity|]. split; [reflexivity|]. destruct (no_coords vs).
    + injection H as <- <-. auto.
    + destruct (getE (recs b) ind) as [r|e]; [|discriminate]. cbn [bind] in H. destruct (finish _ _ _ _) as [v2|e] eqn:F; [|discriminate]. cbn [bind] in H.
      injection H as <- <-. eauto.
Qed.

Lemma array_step h b vs ol om rc lat : CoordModel.hemi b = h ->
  normal_coord b (mkArr false false true (map w_lat vs)) (mkArr false false true (map w_lt vs)) = Ok (ol, om, rc, lat) ->
  let vs1 := put_coords vs lat (el ol) (el om) (el rc) in
  Forall2 (almost_inputs h) vs vs1 /\
  normal_coord b (mkArr false false true (map w_lat vs1)) (mkArr false false true (map w_lt vs1)) = Ok (ol, om, rc, lat) /\
  put_coords vs1 lat (el ol) (el om) (el rc) = vs1.
Proof.
  intros Hh E vs1. subst h. destruct (normal_again b (map w_lat vs) (map w_lt vs) ltac:(now rewrite !map_length) _ _ _ _ E) as (A & B & L1 & L2 & L3).
  rewrite map_length in *. destruct (put_coords_spec (CoordModel.hemi b) vs lat (el ol) (el om) (el rc) B L1 L2 L3) as (P1 & P2 & P3).
  split; [exact P1|]. split; [|exact P3]. unfold vs1. rewrite P2.
  assert (map w_lt (put_coords vs lat (el ol) (el om) (el rc)) = map w_lt vs) as ->; [|exact A].
  clear - P1. induction P1 as [|v w vs ws (_ & H & _) F IH]; cbn; [reflexivity|now rewrite H, IH].
Qed.

Lemma array_kept b ind own arg vs vs' b' : set_ocb_array b ind own arg vs = Ok (vs', b') -> Forall2 (almost_inputs (CoordModel.hemi b)) vs vs'.
Proof.
  intros H. destruct (array_inv _ _ _ _ _ _ _ H) as (r0 & vs1 & _ & E1 & _ & E2).
  assert (S1 : Forall2 (almost_inputs (CoordModel.hemi b)) vs vs1).
  { destruct (no_coords vs).
    - destruct E1 as (ol & om & rc & lat & N & ->). apply (array_step (CoordModel.hemi b) (at_rec b ind) vs ol om rc lat eq_refl N).
    - subst vs1. apply Forall2_refl. unfold almost_inputs, blanked. auto 10. }
  destruct (no_coords vs1); [now subst vs'|]. destruct E2 as (rc & _ & F). apply finish_kept in F; [|now rewrite repeat_length].
  eapply Forall2_trans'; [|exact S1|exact F]. cbn beta. unfold same_inputs, almost_inputs, blanked.
  intros x y z (X1 & X2 & X3 & X4 & X5) [(Y1 & Y2 & Y3 & Y4 & Y5) _]. rewrite Y1, Y2, Y3, Y4, Y5. auto.
Qed.

Lemma array_again b ind own arg vs vs' b' r : getE (recs b) ind = Ok r -> set_ocb_array b ind own arg vs = Ok (vs', b') ->
  set_ocb_array b' ind own arg vs' = Ok (vs', b').
Proof.
  intros V H. destruct (array_inv _ _ _ _ _ _ _ H) as (r0 & vs1 & E0 & E1 & EB & E2).
  assert (G : exists r', getE (recs b') (rind b') = Ok r') by (destruct (no_coords vs); subst b'; cbn; eauto).
  assert (RB : recs b' = recs b) by (destruct (no_coords vs); subst b'; reflexivity).
  destruct G as [r' G]. unfold set_ocb_array. rewrite G. cbn [bind]. cbv zeta. destruct (no_coords vs1) eqn:N1.
  - subst vs'. rewrite N1. destruct (no_coords vs) eqn:N.
    + destruct E1 as (ol & om & rc & lat & E & EV). destruct (array_step (CoordModel.hemi b) (at_rec b ind) vs ol om rc lat eq_refl E) as (_ & A & B).
      subst b' vs1. rewrite at_rec_twice, A. cbn [bind]. rewrite B, N1. reflexivity.
    + subst vs1. congruence.
  - destruct E2 as (rc & E3 & F). assert (LR : length (repeat rc (length vs1)) = length vs1) by apply repeat_length.
    pose proof (finish_kept _ _ _ _ _ LR F) as K.
    assert (N2 : no_coords vs' = false) by (rewrite <- N1; apply no_coords_same; revert K; apply Forall2_imp; tauto).
    rewrite N2. cbn [bind]. rewrite N2, RB, E3. cbn [bind]. rewrite <- (Forall2_length' _ _ _ K).
    assert (FA : finish b' (choose_sf own arg) (repeat rc (length vs1)) vs' = Ok vs').
    { pose proof (finish_again _ _ _ _ _ LR F) as FA. destruct (no_coords vs); subst b'; [rewrite finish_at|]; exact FA. }
    rewrite FA. reflexivity.
Qed.
