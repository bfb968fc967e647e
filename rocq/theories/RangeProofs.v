(** Proofs about the cyclic-range routines. *)
From Coq Require Import Reals ZArith List Bool Lia Lra.
From Verif Require Import PyBase RangeModel RangeSpec.
Import ListNotations.
Open Scope R_scope.

Lemma shifted_refl r v : shifted r v v.
Proof. exists 0%Z. simpl. lra. Qed.
Lemma shifted_sym r v w : shifted r v w -> shifted r w v.
Proof. intros [k ->]. exists (- k)%Z. rewrite opp_IZR. lra. Qed.
Lemma shifted_trans r u v w : shifted r u v -> shifted r v w -> shifted r u w.
Proof. intros [a ->] [b ->]. exists (a + b)%Z. rewrite plus_IZR. lra. Qed.
Lemma shifted_step r u v : shifted r u v -> shifted r u (v - r) /\ shifted r u (v + r).
Proof.
  intros H. split; eapply shifted_trans; try exact H.
  - exists (-1)%Z. simpl. lra.
  - exists 1%Z. simpl. lra.
Qed.

Lemma shifted_unique r v a b :
  0 < r -> shifted r v a -> shifted r v b ->
  forall m, m <= a < m + r -> m <= b < m + r -> a = b.
Proof.
  intros Hr [i ->] [j ->] m Ha Hb.
  assert (H : (i = j)%Z).
  { destruct (Z.lt_trichotomy i j) as [L|[L|L]]; [|exact L|].
    - exfalso. assert (1 <= IZR j - IZR i).
      { rewrite <- minus_IZR. apply (IZR_le 1). lia. } nra.
    - exfalso. assert (1 <= IZR i - IZR j).
      { rewrite <- minus_IZR. apply (IZR_le 1). lia. } nra. }
  now rewrite H.
Qed.

Lemma passes_enough rng d : 0 < rng -> 0 <= d -> d < INR (passes_for rng d) * rng.
Proof.
  intros Hr Hd. unfold passes_for. rewrite Rabs_right by lra.
  destruct (archimed (d / rng)) as [A _].
  assert (0 <= d / rng) by (apply Rmult_le_pos; [lra|]; left; now apply Rinv_0_lt_compat).
  assert (Hup : (0 < up (d / rng))%Z) by (apply lt_IZR; simpl; lra).
  rewrite S_INR, INR_IZR_INZ, Z2Nat.id by lia.
  apply Rgt_lt in A. apply (Rmult_lt_compat_r rng) in A; [|exact Hr].
  replace (d / rng * rng) with d in A by (field; lra). lra.
Qed.

Lemma sub_loop_spec fuel mx rng v :
  0 < rng -> v - mx < INR fuel * rng ->
  exists w, sub_loop fuel mx rng v = Ok w /\ w < mx /\ shifted rng v w /\
    (v < mx -> w = v) /\ (mx <= v -> mx - rng <= w).
Proof.
  intros Hr. revert v. induction fuel as [|f IH]; intros v Hf.
  - simpl in Hf. simpl. destruct (Rle_dec mx v); [lra|].
    exists v. split; [reflexivity|]. split; [lra|]. split; [apply shifted_refl|]. split; lra.
  - simpl. destruct (Rle_dec mx v) as [H|H].
    + rewrite S_INR in Hf. destruct (IH (v - rng) ltac:(lra)) as [w [A [B [C [D E]]]]].
      exists w. split; [exact A|]. split; [exact B|]. split.
      { eapply shifted_trans; [|exact C]. exists (-1)%Z. simpl. lra. }
      split; [lra|]. intros _. destruct (Rlt_le_dec (v - rng) mx) as [L|L].
      * rewrite D by exact L. lra.
      * now apply E.
    + exists v. split; [reflexivity|]. split; [lra|]. split; [apply shifted_refl|]. split; lra.
Qed.

Lemma add_loop_spec fuel mn rng v :
  0 < rng -> mn - v < INR fuel * rng ->
  exists w, add_loop fuel mn rng v = Ok w /\ mn <= w /\ shifted rng v w /\
    (mn <= v -> w = v) /\ (v < mn -> w < mn + rng).
Proof.
  intros Hr. revert v. induction fuel as [|f IH]; intros v Hf.
  - simpl in Hf. simpl. destruct (Rlt_dec v mn); [lra|].
    exists v. split; [reflexivity|]. split; [lra|]. split; [apply shifted_refl|]. split; lra.
  - simpl. destruct (Rlt_dec v mn) as [H|H].
    + rewrite S_INR in Hf. destruct (IH (v + rng) ltac:(lra)) as [w [A [B [C [D E]]]]].
      exists w. split; [exact A|]. split; [exact B|]. split.
      { eapply shifted_trans; [|exact C]. exists 1%Z. simpl. lra. }
      split; [lra|]. intros _. destruct (Rlt_le_dec (v + rng) mn) as [L|L].
      * now apply E.
      * rewrite D by exact L. lra.
    + exists v. split; [reflexivity|]. split; [lra|]. split; [apply shifted_refl|]. split; lra.
Qed.

Lemma passes_sub mx rng v : 0 < rng -> v - mx < INR (passes_for rng (v - mx)) * rng.
Proof.
  intros Hr. destruct (Rlt_le_dec (v - mx) 0) as [L|L].
  - pose proof (pos_INR (passes_for rng (v - mx))).
    assert (0 <= INR (passes_for rng (v - mx)) * rng) by (apply Rmult_le_pos; lra). lra.
  - now apply passes_enough.
Qed.

Lemma passes_add mn rng v : 0 < rng -> mn - v < INR (passes_for rng (v - mn)) * rng.
Proof.
  intros Hr. destruct (Rlt_le_dec (mn - v) 0) as [L|L].
  - pose proof (pos_INR (passes_for rng (v - mn))).
    assert (0 <= INR (passes_for rng (v - mn)) * rng) by (apply Rmult_le_pos; lra). lra.
  - replace (passes_for rng (v - mn)) with (passes_for rng (mn - v)).
    + now apply passes_enough.
    + unfold passes_for. now rewrite Rabs_minus_sym.
Qed.

Lemma range_of_ok mn mx rng :
  mn < mx -> 0 < eff_range mn mx rng -> range_of mn mx rng = Ok (eff_range mn mx rng).
Proof.
  intros H1 H2. unfold range_of, eff_range in *. destruct (Rle_dec mx mn); [lra|].
  destruct rng as [r|]; destruct (Rle_dec _ 0); try reflexivity; lra.
Qed.

Lemma range_of_err mn mx rng :
  mx <= mn \/ eff_range mn mx rng <= 0 -> range_of mn mx rng = Err ValueError.
Proof.
  intros H. unfold range_of, eff_range in *. destruct (Rle_dec mx mn); [reflexivity|].
  destruct rng as [r|]; destruct (Rle_dec _ 0); try reflexivity; lra.
Qed.

(** What fix_range returns on a number, for any positive range. *)
Lemma fix_range_spec v mn mx rng :
  mn < mx -> 0 < eff_range mn mx rng ->
  exists w, fix_range (Some v) mn mx rng = Ok (Some w) /\
    shifted (eff_range mn mx rng) v w /\ mn <= w /\
    w < Rmax mx (mn + eff_range mn mx rng) /\
    (mn <= v < mx -> w = v).
Proof.
  intros H1 H2. unfold fix_range. rewrite range_of_ok by assumption. cbn [bind].
  set (r := eff_range mn mx rng) in *.
  destruct (sub_loop_spec _ mx r v H2 (passes_sub mx r v H2)) as [y [A [B [C [D E]]]]].
  rewrite A. cbn [bind].
  destruct (add_loop_spec _ mn r y H2 (passes_add mn r y H2)) as [z [A' [B' [C' [D' E']]]]].
  rewrite A'. cbn [bind]. exists z. split; [reflexivity|].
  split; [eapply shifted_trans; eassumption|]. split; [exact B'|]. split.
  - destruct (Rlt_le_dec y mn) as [L|L].
    + specialize (E' L). eapply Rlt_le_trans; [exact E'|apply Rmax_r].
    + rewrite D' by exact L. eapply Rlt_le_trans; [exact B|apply Rmax_l].
  - intros [L1 L2]. rewrite D in * by exact L2. now apply D'.
Qed.

Lemma fix_range_in v mn mx rng :
  mn < mx -> 0 < eff_range mn mx rng <= mx - mn ->
  exists w, fix_range (Some v) mn mx rng = Ok (Some w) /\
    shifted (eff_range mn mx rng) v w /\ mn <= w < mx /\ (mn <= v < mx -> w = v).
Proof.
  intros H1 H2. destruct (fix_range_spec v mn mx rng H1 ltac:(lra)) as [w [A [B [C [D E]]]]].
  exists w. split; [exact A|]. split; [exact B|]. split; [|exact E]. split; [exact C|].
  eapply Rlt_le_trans; [exact D|]. apply Rmax_lub; lra.
Qed.

(** When the range is exactly the width, the result is determined. *)
Lemma fix_range_unique v w mn mx :
  mn < mx -> shifted (mx - mn) v w -> mn <= w < mx ->
  fix_range (Some v) mn mx None = Ok (Some w).
Proof.
  intros H1 H2 H3. destruct (fix_range_in v mn mx None H1) as [w' [A [B [C _]]]].
  { simpl. lra. }
  simpl in B. rewrite A. do 2 f_equal.
  apply (shifted_unique (mx - mn) v w' w ltac:(lra) B H2 mn); lra.
Qed.

(** ** Arrays *)
Definition elt_sub (n : nat) (mx r : R) (v : fl) : res fl :=
  match v with None => Ok None | Some x => y <- sub_loop n mx r x ;; Ok (Some y) end.
Definition elt_add (n : nat) (mn r : R) (v : fl) : res fl :=
  match v with None => Ok None | Some x => y <- add_loop n mn r x ;; Ok (Some y) end.

Lemma sub_loop_mono n m mx r x y : (n <= m)%nat -> sub_loop n mx r x = Ok y -> sub_loop m mx r x = Ok y.
Proof.
  revert m x. induction n as [|n IH]; intros m x H E.
  - destruct m; simpl in *; destruct (Rle_dec mx x); [discriminate|exact E|discriminate|exact E].
  - destruct m as [|m]; [lia|]. simpl in *. destruct (Rle_dec mx x); [|exact E].
    apply IH; [lia|exact E].
Qed.
Lemma add_loop_mono n m mn r x y : (n <= m)%nat -> add_loop n mn r x = Ok y -> add_loop m mn r x = Ok y.
Proof.
  revert m x. induction n as [|n IH]; intros m x H E.
  - destruct m; simpl in *; destruct (Rlt_dec x mn); [discriminate|exact E|discriminate|exact E].
  - destruct m as [|m]; [lia|]. simpl in *. destruct (Rlt_dec x mn); [|exact E].
    apply IH; [lia|exact E].
Qed.

Lemma arr_sub_spec n mx r l l' :
  Forall2 (fun v w => elt_sub n mx r v = Ok w) l l' -> arr_sub n mx r l = Ok l'.
Proof.
  revert l l'. induction n as [|n IH]; intros l l' H.
  - assert (E : existsb (over mx) l = false /\ l = l').
    { induction H as [|v w l l' H1 H2 [IH1 IH2]]; [auto|]. simpl. unfold over at 1.
      destruct v as [x|]; simpl in H1.
      - destruct (Rle_dec mx x); simpl in H1; [discriminate|]. injection H1 as <-.
        subst. auto.
      - injection H1 as <-. subst. auto. }
    destruct E as [E ->]. simpl. now rewrite E.
  - simpl. destruct (existsb (over mx) l) eqn:E.
    + apply IH. clear IH E. unfold sub_pass.
      induction H as [|v w l l' H1 H2 IH2]; [constructor|]. simpl. constructor; [|exact IH2].
      destruct v as [x|]; simpl in *; [|exact H1].
      destruct (Rle_dec mx x) as [L|L]; simpl; [exact H1|].
      destruct n; simpl; destruct (Rle_dec mx x); try contradiction; exact H1.
    + f_equal. induction H as [|v w l l' H1 H2 IH2]; [reflexivity|]. simpl in E.
      apply orb_false_iff in E. destruct E as [E1 E2]. f_equal; [|now apply IH2].
      destruct v as [x|]; simpl in *; [|congruence].
      destruct (Rle_dec mx x); [discriminate|]. simpl in H1. congruence.
Qed.

Lemma arr_add_spec n mn r l l' :
  Forall2 (fun v w => elt_add n mn r v = Ok w) l l' -> arr_add n mn r l = Ok l'.
Proof.
  revert l l'. induction n as [|n IH]; intros l l' H.
  - assert (E : existsb (under mn) l = false /\ l = l').
    { induction H as [|v w l l' H1 H2 [IH1 IH2]]; [auto|]. simpl. unfold under at 1.
      destruct v as [x|]; simpl in H1.
      - destruct (Rlt_dec x mn); simpl in H1; [discriminate|]. injection H1 as <-.
        subst. auto.
      - injection H1 as <-. subst. auto. }
    destruct E as [E ->]. simpl. now rewrite E.
  - simpl. destruct (existsb (under mn) l) eqn:E.
    + apply IH. clear IH E. unfold add_pass.
      induction H as [|v w l l' H1 H2 IH2]; [constructor|]. simpl. constructor; [|exact IH2].
      destruct v as [x|]; simpl in *; [|exact H1].
      destruct (Rlt_dec x mn) as [L|L]; simpl; [exact H1|].
      destruct n; simpl; destruct (Rlt_dec x mn); try contradiction; exact H1.
    + f_equal. induction H as [|v w l l' H1 H2 IH2]; [reflexivity|]. simpl in E.
      apply orb_false_iff in E. destruct E as [E1 E2]. f_equal; [|now apply IH2].
      destruct v as [x|]; simpl in *; [|congruence].
      destruct (Rlt_dec x mn); [discriminate|]. simpl in H1. congruence.
Qed.

Lemma arr_passes_in r b l x :
  In (Some x) l -> (passes_for r (x - b) <= arr_passes r b l)%nat.
Proof.
  induction l as [|v l IH]; [intros []|]. intros [->|H]; simpl; [lia|].
  specialize (IH H). lia.
Qed.

Lemma forall2_map_in {A B} (P : A -> B -> Prop) (f : A -> B) l :
  (forall a, In a l -> P a (f a)) -> Forall2 P l (map f l).
Proof.
  induction l as [|a l IH]; intros H; simpl; [constructor|]. constructor.
  - apply H. now left.
  - apply IH. intros x Hx. apply H. now right.
Qed.

Lemma fix_range_arr_spec nd l mn mx rng :
  mn < mx -> 0 < eff_range mn mx rng ->
  exists out, fix_range_arr nd l mn mx rng = Ok (out, if nd then out else l) /\
    Forall2 (fun v w => fix_range v mn mx rng = Ok w) l out.
Proof.
  intros H1 H2. unfold fix_range_arr. rewrite range_of_ok by assumption. cbn [bind].
  set (r := eff_range mn mx rng) in *.
  set (f1 := fun v : fl => match elt_sub (arr_passes r mx l) mx r v with Ok w => w | Err _ => None end).
  assert (F1 : Forall2 (fun v w => elt_sub (arr_passes r mx l) mx r v = Ok w) l (map f1 l)).
  { apply forall2_map_in. intros v Hv. unfold f1. destruct v as [x|]; [|reflexivity].
    simpl. destruct (sub_loop_spec _ mx r x H2 (passes_sub mx r x H2)) as [y [A _]].
    rewrite (sub_loop_mono _ _ _ _ _ _ (arr_passes_in r mx l x Hv) A). reflexivity. }
  rewrite (arr_sub_spec _ _ _ _ _ F1). cbn [bind].
  set (l1 := map f1 l) in *.
  set (f2 := fun v : fl => match elt_add (arr_passes r mn l1) mn r v with Ok w => w | Err _ => None end).
  assert (F2 : Forall2 (fun v w => elt_add (arr_passes r mn l1) mn r v = Ok w) l1 (map f2 l1)).
  { apply forall2_map_in. intros v Hv. unfold f2. destruct v as [x|]; [|reflexivity].
    simpl. destruct (add_loop_spec _ mn r x H2 (passes_add mn r x H2)) as [y [A _]].
    rewrite (add_loop_mono _ _ _ _ _ _ (arr_passes_in r mn l1 x Hv) A). reflexivity. }
  rewrite (arr_add_spec _ _ _ _ _ F2). cbn [bind].
  exists (map f2 l1). split; [reflexivity|].
  unfold l1. rewrite map_map. apply forall2_map_in. intros v Hv.
  assert (Hv1 : In (f1 v) l1) by (now apply in_map).
  unfold fix_range. rewrite range_of_ok by assumption. cbn [bind]. fold r.
  destruct v as [x|]; [|reflexivity].
  destruct (sub_loop_spec _ mx r x H2 (passes_sub mx r x H2)) as [y [A _]].
  rewrite A. cbn [bind].
  assert (Ef1 : f1 (Some x) = Some y).
  { unfold f1. simpl. rewrite (sub_loop_mono _ _ _ _ _ _ (arr_passes_in r mx l x Hv) A). reflexivity. }
  rewrite Ef1 in *.
  destruct (add_loop_spec _ mn r y H2 (passes_add mn r y H2)) as [z [B _]].
  rewrite B. cbn [bind]. f_equal. unfold f2. simpl.
  rewrite (add_loop_mono _ _ _ _ _ _ (arr_passes_in r mn l1 y Hv1) B). reflexivity.
Qed.

(** ** Conversions *)
Lemma shifted_scale c r v w : shifted r v w -> shifted (r * c) (v * c) (w * c).
Proof. intros [k ->]. exists k. lra. Qed.
Lemma shifted_add c r v w : shifted r v w -> shifted r (v + c) (w + c).
Proof. intros [k ->]. exists k. lra. Qed.

Lemma deg2hr_spec d : exists h, deg2hr (Some d) = Ok (Some h) /\
  0 <= h < 24 /\ shifted 24 (d / 15) h.
Proof.
  unfold deg2hr. simpl. destruct (fix_range_in (d / 15) 0 24 None) as [w [A [B [C _]]]]; simpl in *; try lra.
  exists w. split; [exact A|]. split; [exact C|]. replace 24 with (24 - 0) by lra. exact B.
Qed.

Lemma hr2deg_spec h mn mx : exists d, hr2deg (Some h) mn mx = Ok (Some d) /\
  (if Rlt_dec (mx - mn) 360 then mx - 360 else mn) <= d < mx /\ shifted 360 (h * 15) d.
Proof.
  unfold hr2deg. simpl.
  destruct (fix_range_in (h * 15) (if Rlt_dec (mx - mn) 360 then mx - 360 else mn) mx (Some 360))
    as [w [A [B [C _]]]]; simpl.
  - destruct (Rlt_dec (mx - mn) 360); lra.
  - destruct (Rlt_dec (mx - mn) 360); lra.
  - exists w. auto.
Qed.

Lemma hr2rad_spec h m : exists x, hr2rad (Some h) m = Ok (Some x) /\
  m - 2 * PI <= x < m /\ shifted (2 * PI) (h * PI / 12) x.
Proof.
  pose proof PI_RGT_0. unfold hr2rad. simpl.
  destruct (fix_range_in (h * PI / 12) (m - 2 * PI) m None) as [w [A [B [C _]]]]; simpl in *; try lra.
  exists w. split; [exact A|]. split; [exact C|].
  replace (2 * PI) with (m - (m - 2 * PI)) by lra. exact B.
Qed.

Lemma rad2hr_spec x : exists h, rad2hr (Some x) = Ok (Some h) /\
  0 <= h < 24 /\ shifted 24 (x * 12 / PI) h.
Proof.
  unfold rad2hr. simpl. destruct (fix_range_in (x * 12 / PI) 0 24 None) as [w [A [B [C _]]]]; simpl in *; try lra.
  exists w. split; [exact A|]. split; [exact C|]. replace 24 with (24 - 0) by lra. exact B.
Qed.

Lemma sin_shift x k : sin (x + IZR k * (2 * PI)) = sin x.
Proof.
  destruct (Z_le_gt_dec 0 k) as [H|H].
  - replace (IZR k) with (INR (Z.to_nat k)) by (rewrite INR_IZR_INZ, Z2Nat.id by lia; reflexivity).
    replace (x + INR (Z.to_nat k) * (2 * PI)) with (x + 2 * INR (Z.to_nat k) * PI) by lra.
    apply sin_period.
  - replace x with ((x + IZR k * (2 * PI)) + 2 * INR (Z.to_nat (- k)) * PI) at 2.
    + symmetry. apply sin_period.
    + rewrite INR_IZR_INZ, Z2Nat.id by lia. rewrite opp_IZR. lra.
Qed.

Lemma cos_shift x k : cos (x + IZR k * (2 * PI)) = cos x.
Proof.
  destruct (Z_le_gt_dec 0 k) as [H|H].
  - replace (IZR k) with (INR (Z.to_nat k)) by (rewrite INR_IZR_INZ, Z2Nat.id by lia; reflexivity).
    replace (x + INR (Z.to_nat k) * (2 * PI)) with (x + 2 * INR (Z.to_nat k) * PI) by lra.
    apply cos_period.
  - replace x with ((x + IZR k * (2 * PI)) + 2 * INR (Z.to_nat (- k)) * PI) at 2.
    + symmetry. apply cos_period.
    + rewrite INR_IZR_INZ, Z2Nat.id by lia. rewrite opp_IZR. lra.
Qed.

Lemma shifted_trig x y : shifted (2 * PI) x y -> sin y = sin x /\ cos y = cos x.
Proof. intros [k ->]. split; [apply sin_shift|apply cos_shift]. Qed.
