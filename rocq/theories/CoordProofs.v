(** Lemmas about polar coordinates and the single-boundary conversions. *)
From Coq Require Import Reals ZArith List Bool Lia Lra.
From Verif Require Import PyBase RangeModel RangeSpec RangeProofs CoordModel CoordSpec.
Import ListNotations.
Open Scope R_scope.

(** ** Polar coordinates *)
Lemma sq_sqrt_scale x y : 0 < x -> sqrt (x ^ 2 + y ^ 2) = x * sqrt (1 + (y / x)²).
Proof.
  intros H. rewrite <- (sqrt_square x) at 2 by lra. rewrite <- sqrt_mult; [|nra|].
  - f_equal. unfold Rsqr. field. lra.
  - pose proof (Rle_0_sqr (y / x)). lra.
Qed.

Lemma sqrt_pos1 z : 0 < sqrt (1 + z²).
Proof. apply sqrt_lt_R0. pose proof (Rle_0_sqr z). lra. Qed.

Lemma atan2_spec y x :
  let rho := sqrt (x ^ 2 + y ^ 2) in
  x = rho * cos (atan2 y x) /\ y = rho * sin (atan2 y x).
Proof.
  cbv zeta. unfold atan2. destruct (Rlt_dec 0 x) as [H|H].
  - rewrite sq_sqrt_scale by exact H. rewrite cos_atan, sin_atan.
    pose proof (sqrt_pos1 (y / x)). split; field; repeat split; lra.
  - destruct (Rlt_dec x 0) as [N|N].
    + assert (E : sqrt (x ^ 2 + y ^ 2) = - x * sqrt (1 + (y / x)²)).
      { replace (x ^ 2) with ((- x) ^ 2) by ring. rewrite sq_sqrt_scale by lra.
        do 3 f_equal. unfold Rsqr. field. lra. }
      rewrite E. pose proof (sqrt_pos1 (y / x)).
      assert (G : forall t, cos t = - (1 / sqrt (1 + (y / x)²)) -> sin t = - (y / x / sqrt (1 + (y / x)²)) ->
        x = - x * sqrt (1 + (y / x)²) * cos t /\ y = - x * sqrt (1 + (y / x)²) * sin t).
      { intros t -> ->. split; field; repeat split; lra. }
      destruct (Rle_dec 0 y); apply G.
      * rewrite neg_cos, cos_atan. reflexivity.
      * rewrite neg_sin, sin_atan. reflexivity.
      * replace (atan (y / x) - PI) with (- (PI - atan (y / x))) by lra.
        rewrite cos_neg, Rtrigo_facts.cos_pi_minus, cos_atan. reflexivity.
      * replace (atan (y / x) - PI) with (- (PI - atan (y / x))) by lra.
        rewrite sin_neg, Rtrigo_facts.sin_pi_minus, sin_atan. reflexivity.
    + assert (x = 0) by lra. subst x.
      replace (0 ^ 2 + y ^ 2) with (y * y) by ring.
      destruct (Rlt_dec 0 y).
      * rewrite sqrt_square by lra. rewrite cos_PI2, sin_PI2. lra.
      * destruct (Rlt_dec y 0).
        -- replace (y * y) with ((- y) * (- y)) by ring. rewrite sqrt_square by lra.
           rewrite cos_neg, sin_neg, cos_PI2, sin_PI2. lra.
        -- assert (y = 0) by lra. subst. rewrite Rmult_0_l, sqrt_0. lra.
Qed.

Lemma atan2_bound y x : - PI < atan2 y x <= PI.
Proof.
  pose proof PI_RGT_0. unfold atan2.
  destruct (Rlt_dec 0 x) as [H1|H1]; [pose proof (atan_bound (y / x)); lra|].
  destruct (Rlt_dec x 0) as [H2|H2].
  - destruct (Rle_dec 0 y) as [H3|H3].
    + assert (y / x <= 0).
      { unfold Rdiv. assert (/ x < 0) by (now apply Rinv_lt_0_compat). nra. }
      assert (atan (y / x) <= 0).
      { destruct (Req_dec (y / x) 0) as [->|]; [rewrite atan_0; lra|].
        rewrite <- atan_0. left. apply atan_increasing. lra. }
      pose proof (atan_bound (y / x)). lra.
    + assert (0 < y / x).
      { unfold Rdiv. assert (/ x < 0) by (now apply Rinv_lt_0_compat). nra. }
      assert (0 < atan (y / x)) by (rewrite <- atan_0; apply atan_increasing; lra).
      pose proof (atan_bound (y / x)). lra.
  - destruct (Rlt_dec 0 y); [lra|]. destruct (Rlt_dec y 0); lra.
Qed.

(** Equal sine and cosine means equal up to whole turns. *)
Lemma angle_eq a b : cos a = cos b -> sin a = sin b -> shifted (2 * PI) a b.
Proof.
  intros C S.
  assert (E : cos (b - a) = 1).
  { rewrite cos_minus, C, S. pose proof (sin2_cos2 b). unfold Rsqr in *. lra. }
  assert (Z : sin ((b - a) / 2) = 0).
  { replace (b - a) with (2 * ((b - a) / 2)) in E by lra. rewrite cos_2a_sin in E.
    assert (sin ((b - a) / 2) * sin ((b - a) / 2) = 0) by lra. nra. }
  apply sin_eq_0_0 in Z. destruct Z as [k K]. exists k. lra.
Qed.

Lemma hours_angle a b : shifted (2 * PI) (a * PI / 12) (b * PI / 12) -> shifted 24 a b.
Proof.
  intros [k K]. exists k. pose proof PI_RGT_0.
  assert (E : (b - a - IZR k * 24) * PI = 0) by lra.
  apply Rmult_integral in E. lra.
Qed.

Lemma shifted_hours a b : shifted 24 a b -> shifted (2 * PI) (a * PI / 12) (b * PI / 12).
Proof. intros [k ->]. exists k. lra. Qed.

(** Equal points away from the pole have equal colatitude and MLT. *)
Lemma point_inj d m d' m' : 0 < d -> 0 <= d' -> point d m = point d' m' ->
  d' = d /\ shifted 24 m m'.
Proof.
  unfold point. intros H1 H2 E. injection E as E1 E2.
  set (a := m * PI / 12) in *. set (b := m' * PI / 12) in *.
  pose proof (sin2_cos2 a) as A. pose proof (sin2_cos2 b) as B. unfold Rsqr in A, B.
  assert (D : d' * d' = d * d).
  { assert (d * d * (sin a * sin a + cos a * cos a) = d' * d' * (sin b * sin b + cos b * cos b)).
    { replace (d * d * (sin a * sin a + cos a * cos a)) with
        ((d * sin a) * (d * sin a) + (d * cos a) * (d * cos a)) by ring.
      rewrite E1, E2. ring. }
    rewrite A, B in H. lra. }
  assert (D' : d' = d) by nra. split; [exact D'|]. subst d'.
  apply hours_angle. fold a b. apply angle_eq.
  - apply (Rmult_eq_reg_l d); lra.
  - apply (Rmult_eq_reg_l d); lra.
Qed.

Lemma point_shift d m m' : shifted 24 m m' -> point d m = point d m'.
Proof.
  intros H. destruct (shifted_trig _ _ (shifted_hours _ _ H)) as [A B]. unfold point. now rewrite A, B.
Qed.

(** ** [to_mlt] *)
Lemma deg2hr_none : deg2hr None = Ok None.
Proof. unfold deg2hr, fix_range. simpl. rewrite range_of_ok by (simpl; lra). reflexivity. Qed.
Lemma hr2rad_none m : hr2rad None m = Ok None.
Proof.
  pose proof PI_RGT_0. unfold hr2rad, fix_range. simpl. rewrite range_of_ok by (simpl; lra). reflexivity.
Qed.
Lemma fix24_none : fix_range None 0 24 None = Ok None.
Proof. unfold fix_range. rewrite range_of_ok by (simpl; lra). reflexivity. Qed.

Lemma to_mlt_spec y x : exists m, to_mlt (Some y) (Some x) = Ok (Some m) /\ 0 <= m < 24 /\
  (x, y) = point (sqrt (x ^ 2 + y ^ 2)) m.
Proof.
  unfold to_mlt. cbn [fmap2 fmap option_map].
  destruct (deg2hr_spec (degrees (atan2 y x))) as [h [E [B S]]].
  change (fmap degrees (Some (atan2 y x))) with (Some (degrees (atan2 y x))). rewrite E. cbn [bind].
  exists h. split.
  - destruct (fix_range_in h 0 24 None) as [w [E2 [_ [_ F]]]]; [lra|simpl; lra|].
    rewrite E2. f_equal. f_equal. now apply F.
  - split; [exact B|]. unfold point.
    assert (T : shifted (2 * PI) (atan2 y x) (h * PI / 12)).
    { destruct S as [k K]. exists k. unfold degrees in K. pose proof PI_RGT_0. rewrite K. field. lra. }
    destruct (shifted_trig _ _ T) as [T1 T2]. rewrite T1, T2.
    destruct (atan2_spec y x) as [A1 A2]. now rewrite <- A1, <- A2.
Qed.

Lemma to_mlt_none x y : x = None \/ y = None -> to_mlt y x = Ok None.
Proof.
  intros H. unfold to_mlt. assert (E : fmap2 atan2 y x = None) by (destruct x; destruct y; destruct H; try discriminate; reflexivity).
  rewrite E. simpl. rewrite deg2hr_none. simpl. apply fix24_none.
Qed.

Lemma hr2rad_trig m : exists t, hr2rad (Some m) (2 * PI) = Ok (Some t) /\
  cos t = cos (m * PI / 12) /\ sin t = sin (m * PI / 12).
Proof.
  destruct (hr2rad_spec m (2 * PI)) as [t [E [_ S]]]. exists t. split; [exact E|].
  destruct (shifted_trig _ _ S). tauto.
Qed.

(** ** One position *)
Lemma sqrt_sq_pair a b k : sqrt ((a * k) ^ 2 + (b * k) ^ 2) = sqrt (a ^ 2 + b ^ 2) * Rabs k.
Proof.
  replace ((a * k) ^ 2 + (b * k) ^ 2) with ((a ^ 2 + b ^ 2) * (k * k)) by ring.
  rewrite sqrt_mult; [|nra|nra]. f_equal. rewrite <- (sqrt_Rsqr_abs k). reflexivity.
Qed.

Lemma normal_pt_spec h bl rc lat mlt c :
  rfun rc (Some mlt) = Some c -> rr rc + c <> 0 ->
  let P := point (colat h lat) mlt in
  let k := (90 - Rabs bl) / (rr rc + c) in
  exists m, normal_pt h bl rc (Some lat) (Some mlt) =
              Ok (Some (IZR h * (90 - dist P (centre rc) * Rabs k)), Some m) /\
    0 <= m < 24 /\
    ((fst P - fst (centre rc)) * k, (snd P - snd (centre rc)) * k) = point (dist P (centre rc) * Rabs k) m.
Proof.
  intros Hc Hr P k. unfold normal_pt. destruct (hr2rad_trig mlt) as [t [Et [C S]]].
  rewrite Et. cbn [bind]. rewrite Hc. cbn [fmap fmap2 option_map fdiv].
  change (fmap (fun c0 => rr rc + c0) (Some c)) with (Some (rr rc + c)). cbn [fdiv].
  destruct (Req_EM_T (rr rc + c) 0) as [N|_]; [contradiction|]. cbn [fmap2].
  change (fmap ?f (Some ?x)) with (Some (f x)). cbn [fmap2].
  change (fmap ?f (Some ?x)) with (Some (f x)). cbn [fmap2]. rewrite C, S.
  fold k.
  set (x := (90 - IZR h * lat) * cos (mlt * PI / 12) - centre_x rc).
  set (y := (90 - IZR h * lat) * sin (mlt * PI / 12) - centre_y rc).
  destruct (to_mlt_spec (y * k) (x * k)) as [m [Em [Bm Pm]]]. rewrite Em. cbn [bind].
  assert (D : sqrt ((x * k) ^ 2 + (y * k) ^ 2) = dist P (centre rc) * Rabs k) by apply sqrt_sq_pair.
  exists m. rewrite D in *. split; [reflexivity|]. split; [exact Bm|]. exact Pm.
Qed.

Lemma revert_pt_spec h bl rc olat omlt c :
  colat h bl <> 0 ->
  let N := point (colat h olat) omlt in
  let s := (rr rc + c) / colat h bl in
  let Q := (fst N * s + fst (centre rc), snd N * s + snd (centre rc)) in
  exists m, revert_pt h bl rc (Some olat) (Some omlt) (Some c) =
              Ok (Some (IZR h * (90 - sqrt (fst Q ^ 2 + snd Q ^ 2))), Some m) /\
    0 <= m < 24 /\ Q = point (sqrt (fst Q ^ 2 + snd Q ^ 2)) m.
Proof.
  intros Hb N s Q. unfold revert_pt.
  change (fmap ?f (Some ?x)) with (Some (f x)). cbn [fmap2].
  change (90 - IZR h * bl) with (colat h bl).
  destruct (Req_EM_T (colat h bl) 0) as [Z|_]; [contradiction|]. cbn [fmap2].
  change (fmap ?f (Some ?x)) with (Some (f x)). cbn [fmap2].
  destruct (to_mlt_spec (snd Q) (fst Q)) as [m [Em [Bm Pm]]].
  exists m. change (90 - IZR h * olat) with (colat h olat).
  change (colat h olat * cos (omlt * PI / 12) * ((rr rc + c) / colat h bl) + centre_x rc) with (fst Q).
  change (colat h olat * sin (omlt * PI / 12) * ((rr rc + c) / colat h bl) + centre_y rc) with (snd Q).
  rewrite Em. cbn [bind]. split; [reflexivity|]. split; [exact Bm|]. rewrite <- Pm. now destruct Q.
Qed.

(** Totality and ranges for every input, NaN included. *)
Lemma normal_pt_total h bl rc lat mlt : exists ol om, normal_pt h bl rc lat mlt = Ok (ol, om) /\
  (h = 1%Z \/ h = (-1)%Z -> forall x, ol = Some x -> IZR h * x <= 90) /\
  (forall m, om = Some m -> 0 <= m < 24) /\
  (ol = None <-> om = None) /\
  (ol = None <-> lat = None \/ mlt = None \/ (match rfun rc mlt with Some c => rr rc + c = 0 | None => True end)).
Proof.
  destruct lat as [l|].
  2:{ exists None, None. split.
      - unfold normal_pt. destruct mlt as [m|].
        + destruct (hr2rad_trig m) as [t [-> _]]. cbn [bind fmap option_map fmap2].
          rewrite to_mlt_none by (now left). reflexivity.
        + rewrite hr2rad_none. cbn [bind fmap option_map fmap2].
          rewrite to_mlt_none by (now left). reflexivity.
      - repeat split; try discriminate; auto. }
  destruct mlt as [m|].
  2:{ exists None, None. split.
      - unfold normal_pt. rewrite hr2rad_none. cbn [bind fmap option_map fmap2].
        rewrite to_mlt_none by (now left). reflexivity.
      - repeat split; try discriminate; auto. }
  destruct (rfun rc (Some m)) as [c|] eqn:Ec.
  2:{ exists None, None. split.
      - unfold normal_pt. destruct (hr2rad_trig m) as [t [-> _]]. cbn [bind]. rewrite Ec.
        cbn [fmap option_map fmap2 fdiv]. rewrite to_mlt_none by (now left). reflexivity.
      - repeat split; try discriminate; auto. }
  destruct (Req_EM_T (rr rc + c) 0) as [Z|Z].
  { exists None, None. split.
    - unfold normal_pt. destruct (hr2rad_trig m) as [t [-> _]]. cbn [bind]. rewrite Ec.
      cbn [fmap option_map fmap2 fdiv]. destruct (Req_EM_T (rr rc + c) 0); [|contradiction].
      cbn [fmap2]. rewrite to_mlt_none by (now left). reflexivity.
    - repeat split; try discriminate; auto. }
  destruct (normal_pt_spec h bl rc l m c Ec Z) as [mm [E [B _]]].
  rewrite E. eexists _, _. split; [reflexivity|]. split.
  - intros Hh x Hx. injection Hx as <-.
    set (d := dist (point (colat h l) m) (centre rc)).
    assert (0 <= d) by apply sqrt_pos.
    pose proof (Rabs_pos ((90 - Rabs bl) / (rr rc + c))).
    assert (0 <= d * Rabs ((90 - Rabs bl) / (rr rc + c))) by (apply Rmult_le_pos; assumption).
    rewrite <- Rmult_assoc. destruct Hh as [-> | ->]; lra.
  - split; [intros x Hx; injection Hx as <-; exact B|]. split; [split; discriminate|].
    split; [discriminate|]. intros [?|[?|?]]; try discriminate. contradiction.
Qed.

Lemma revert_pt_total h bl rc olat omlt rcorr : exists al am,
  revert_pt h bl rc olat omlt rcorr = Ok (al, am) /\
  (h = 1%Z \/ h = (-1)%Z -> forall x, al = Some x -> IZR h * x <= 90) /\
  (forall m, am = Some m -> 0 <= m < 24) /\
  (al = None <-> am = None) /\
  (al = None <-> olat = None \/ omlt = None \/ rcorr = None \/ colat h bl = 0).
Proof.
  assert (T : forall a b c, (a = None \/ b = None \/ c = None \/ colat h bl = 0) ->
            revert_pt h bl rc a b c = Ok (None, None)).
  { intros a b c H. unfold revert_pt. change (90 - IZR h * bl) with (colat h bl).
    match goal with |- context [fmap2 Rmult _ ?s] => set (sc := s) end.
    assert (X : forall f, fmap2 Rmult (fmap2 f (fmap (fun l => 90 - IZR h * l) a)
                         (fmap (fun m => m * PI / 12) b)) sc = None).
    { intros f. destruct a as [a|]; [|reflexivity]. destruct b as [b|]; [|reflexivity].
      cbn [fmap option_map fmap2]. unfold sc. destruct c as [c|]; [|reflexivity].
      cbn [fmap option_map]. destruct (Req_EM_T (colat h bl) 0); [reflexivity|].
      destruct H as [H|[H|[H|H]]]; try discriminate. contradiction. }
    rewrite !X. cbn [fmap option_map fmap2]. rewrite to_mlt_none by (now left). reflexivity. }
  destruct olat as [l|]; [|exists None, None; rewrite T by auto; repeat split; try discriminate; auto].
  destruct omlt as [m|]; [|exists None, None; rewrite T by auto; repeat split; try discriminate; auto].
  destruct rcorr as [c|]; [|exists None, None; rewrite T by auto; repeat split; try discriminate; auto].
  destruct (Req_EM_T (colat h bl) 0) as [Z|Z];
    [exists None, None; rewrite T by auto; repeat split; try discriminate; auto|].
  destruct (revert_pt_spec h bl rc l m c Z) as [mm [E [B _]]]. cbv zeta in E.
  rewrite E. eexists _, _. split; [reflexivity|]. split.
  - intros Hh x Hx. injection Hx as <-.
    match goal with |- context [sqrt ?a] => pose proof (sqrt_pos a) as Q; set (q := sqrt a) in * end.
    rewrite <- Rmult_assoc. destruct Hh as [-> | ->]; lra.
  - split; [intros x Hx; injection Hx as <-; exact B|]. split; [split; discriminate|].
    split; [discriminate|]. intros [?|[?|[?|?]]]; try discriminate. contradiction.
Qed.
