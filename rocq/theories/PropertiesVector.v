(** C46-C53, C82, C83: vectors relative to a boundary. *)
From Coq Require Import Reals ZArith List Bool Lia Lra.
From Verif Require Import PyBase RangeModel RangeSpec RangeProofs CoordModel CoordSpec CoordProofs DualCoordModel
  VectorModel VectorSpec VectorProofs VectorProofs2.
Import ListNotations.
Open Scope R_scope.

(** ** C46 *)
Theorem C46_vector_quadrants :
  forall vn ve : fl,
    let q := define_vect_quadrants vn ve in
    (q = 0%Z <-> vn = None \/ ve = None) /\
    (forall n e, vn = Some n -> ve = Some e ->
       quad_defined q /\ (quad_north q <-> 0 <= n) /\ (quad_east q <-> 0 <= e)).
Proof.
  intros vn ve q. unfold q, define_vect_quadrants, quad_defined, quad_north, quad_east. split.
  - destruct vn as [n|]; [|split; auto]. destruct ve as [e|]; [|split; auto].
    split; [|intros [H|H]; discriminate].
    destruct (Rle_dec 0 n), (Rle_dec 0 e), (Rlt_dec e 0); discriminate.
  - intros n e -> ->. split; [|split]; destruct (Rle_dec 0 n), (Rle_dec 0 e), (Rlt_dec e 0); try lia; try lra;
      split; intros H; try lra; try (now left); try (now right); destruct H; discriminate.
Qed.
Theorem C46_pole_quadrants :
  forall lt plt ang : fl, exists q,
    define_pole_quadrants lt plt ang = Ok q /\
    (q = 0%Z <-> lt = None \/ plt = None \/ ang = None) /\
    (forall a b A dl, lt = Some a -> plt = Some b -> ang = Some A -> hours_east a b dl ->
       quad_defined q /\ (quad_north q <-> A < 90) /\ (quad_east q <-> dl < 12)).
Proof.
  intros lt plt ang. destruct (pole_quad_total lt plt ang) as [q E]. exists q. split; [exact E|].
  unfold quad_defined, quad_north, quad_east. split.
  - unfold define_pole_quadrants in E. destruct lt as [a|].
    2:{ unfold del_lt in E. destruct plt; cbn in E; destruct ang; injection E as <-; split; auto. }
    destruct plt as [b|].
    2:{ cbn in E. destruct ang; injection E as <-; split; auto. }
    destruct (del_lt_spec a b) as [d [D HE]]. rewrite D in E. cbn [bind] in E. destruct ang as [A|].
    + injection E as <-. split; [|intros [H|[H|H]]; discriminate]. destruct (Rlt_dec A 90), (Rlt_dec d 12); discriminate.
    + injection E as <-. split; auto.
  - intros a b A dl -> -> -> HE. rewrite (pole_quad_spec _ _ _ _ HE) in E. injection E as <-.
    split; [|split]; destruct (Rlt_dec A 90), (Rlt_dec dl 12); try lia; split; intros H; try lra; try (now left); try (now right);
      destruct H; discriminate.
Qed.
(** A pole five days and three hours "ahead" of the data is three hours east of it. *)
Example C46_case : hours_east 22 145 3 /\ define_pole_quadrants (Some 22) (Some 145) (Some 100) = Ok 4%Z.
Proof.
  assert (H : hours_east 22 145 3) by (split; [exists (-5)%Z; lra|lra]). split; [exact H|].
  rewrite (pole_quad_spec _ _ _ _ H). destruct (Rlt_dec 100 90); [lra|]. destruct (Rlt_dec 3 12); [reflexivity|lra].
Qed.
Print Assumptions C46_vector_quadrants.
Print Assumptions C46_pole_quadrants.

(** ** C47 *)
Theorem C47_dest_angle_range :
  forall pq vq b a,
    quad_defined pq -> quad_defined vq -> 0 <= a <= 180 -> 0 <= b <= 180 ->
    (* quadrants that fit the angles *)
    (quad_north pq <-> a < 90) -> (quad_north vq -> b <= 90) -> (~ quad_north vq -> 90 <= b) ->
    exists d, calc_dest_polar_angle pq vq (Some b) (Some a) = Ok (Some d) /\ 0 <= d <= 180.
Proof.
  unfold quad_defined, quad_north. intros pq vq b a P V A B HP HN HS.
  set (est := if (pq =? 1)%Z then true else if (pq =? 4)%Z then true else false).
  assert (PQ : pq = pq_of a est).
  { unfold pq_of, est. destruct (Rlt_dec a 90) as [L|L].
    - apply HP in L. destruct L as [-> | ->]; reflexivity.
    - assert (pq <> 1 /\ pq <> 2)%Z by (split; intros ->; apply L, HP; auto). assert (pq = 3 \/ pq = 4)%Z as [-> | ->] by lia; reflexivity. }
  set (np := if (vq =? 1)%Z then true else if (vq =? 2)%Z then true else false).
  set (ep := if (vq =? 1)%Z then true else if (vq =? 4)%Z then true else false).
  assert (VQ : vq = if np then if ep then 1%Z else 2%Z else if ep then 4%Z else 3%Z).
  { unfold np, ep. assert (vq = 1 \/ vq = 2 \/ vq = 3 \/ vq = 4)%Z as [-> |[-> |[-> | ->]]] by lia; reflexivity. }
  assert (HB : if np then b <= 90 else 90 <= b).
  { unfold np. assert (vq = 1 \/ vq = 2 \/ vq = 3 \/ vq = 4)%Z as [-> |[-> |[-> | ->]]] by lia; cbn;
      first [apply HN; lia | apply HS; lia]. }
  destruct (quad_cases est ep np a b A B HB) as (d & D & R & _). cbv zeta in D. rewrite <- VQ, <- PQ in D.
  exists d. split; [|exact R]. unfold calc_dest_polar_angle.
  assert (quad_ok pq = true) as -> by (unfold quad_ok; apply andb_true_intro; split; apply Z.leb_le; lia).
  assert (quad_ok vq = true) as -> by (unfold quad_ok; apply andb_true_intro; split; apply Z.leb_le; lia).
  cbn [negb]. now rewrite D.
Qed.
Theorem C47_dest_angle_nan :
  forall pq vq base pole, quad_defined pq -> quad_defined vq ->
    exists d, calc_dest_polar_angle pq vq base pole = Ok d /\ (d = None <-> base = None \/ pole = None).
Proof.
  unfold quad_defined. intros pq vq base pole P V. unfold calc_dest_polar_angle.
  assert (PO : quad_ok pq = true) by (unfold quad_ok; apply andb_true_intro; split; apply Z.leb_le; lia).
  assert (VO : quad_ok vq = true) by (unfold quad_ok; apply andb_true_intro; split; apply Z.leb_le; lia).
  rewrite PO, VO. cbn [negb]. eexists. split; [reflexivity|].
  destruct base as [b|]; [|split; [auto|now intros]]. destruct pole as [a|]; [|split; [auto|now intros]].
  destruct (combos_val pq vq b a PO VO) as [d ->]. split; [discriminate|intros [H|H]; discriminate].
Qed.
Theorem C47_undefined_quadrants_raise :
  forall pq vq base pole, ~ quad_defined pq \/ ~ quad_defined vq ->
    calc_dest_polar_angle pq vq base pole = Err ValueError /\ calc_dest_vec_sign pq vq base pole = Err ValueError.
Proof.
  unfold quad_defined. intros pq vq base pole H. unfold calc_dest_polar_angle, calc_dest_vec_sign.
  assert (Q : forall x, ~ (1 <= x <= 4)%Z -> quad_ok x = false).
  { intros x N. unfold quad_ok. apply andb_false_iff. destruct (Z.leb_spec 1 x); [|now left]. right. apply Z.leb_gt. lia. }
  destruct H as [H|H]; rewrite (Q _ H); [auto|]. destruct (quad_ok pq); auto.
Qed.
Example C47_case : exists d, calc_dest_polar_angle 3 1 (Some 80) (Some 120) = Ok (Some d) /\ d = 160.
Proof. cbn. destruct (Rlt_dec 180 (120 + 80)); [|lra]. eexists. split; [reflexivity|lra]. Qed.
Print Assumptions C47_dest_angle_range.
Print Assumptions C47_dest_angle_nan.
Print Assumptions C47_undefined_quadrants_raise.

(** ** C48 *)
Theorem C48_adjust_is_rotation :
  forall lt lat n e z vq plt plat A pq dl,
    0 < A < 180 -> ~ (n = 0 /\ e = 0) ->
    (* quadrants computed by the package, or left to adjust_vector *)
    (vq = 0%Z \/ vq = define_vect_quadrants (Some n) (Some e)) ->
    (pq = 0%Z \/ define_pole_quadrants (Some lt) (Some plt) (Some A) = Ok pq) ->
    (* the pole lies [dl] hours east (less than 12) or west of the vector *)
    hours_east lt plt dl ->
    let s := if Rlt_dec dl 12 then 1 else -1 in
    adjust_vector (mkVin (Some lt) lat (Some n) (Some e) z vq (Some plt) plat (Some A) pq) =
    Ok (Some (n * cos (deg A) + s * e * sin (deg A)), Some (e * cos (deg A) - s * n * sin (deg A)), z).
Proof.
  intros lt lat n e z vq plt plat A pq dl HA NZ V P HE s.
  rewrite (adjust_general lt lat n e z vq plt plat A pq dl); try assumption.
  - unfold s, is_east, pm. now destruct (Rlt_dec dl 12).
  - split; assumption.
Qed.
Example C48_case : 0 < 90 < 180 /\ ~ (3 = 0 /\ -4 = 0) /\ hours_east 22 4 6 /\
  adjust_vector (mkVin (Some 22) (Some 70) (Some 3) (Some (-4)) (Some 5) 0 (Some 4) (Some 85) (Some 90) 0) =
  Ok (Some (-4), Some (-3), Some 5).
Proof.
  assert (H : hours_east 22 4 6) by (split; [exists 1%Z; lra|lra]). split; [lra|]. split; [lra|]. split; [exact H|].
  rewrite (C48_adjust_is_rotation 22 (Some 70) 3 (-4) (Some 5) 0 4 (Some 85) 90 0 6); [|lra|lra|now left|now left|exact H].
  cbv zeta. rewrite deg_90, cos_PI2, sin_PI2. destruct (Rlt_dec 6 12); [|lra].
  replace (3 * 0 + 1 * -4 * 1) with (-4) by lra. replace (-4 * 0 - 1 * 3 * 1) with (-3) by lra. reflexivity.
Qed.
Print Assumptions C48_adjust_is_rotation.

(** ** C49 *)
Theorem C49_magnitude_preserved_partial :
  (* missing: the vertical component of a vector without horizontal part, which is
     lost unless the poles are aligned (C49_vertical_kept_refuted) *)
  forall lt lat n e z vq plt plat A pq,
    0 <= A <= 180 ->
    (vq = 0%Z \/ vq = define_vect_quadrants (Some n) (Some e)) ->
    (pq = 0%Z \/ define_pole_quadrants (Some lt) (Some plt) (Some A) = Ok pq) ->
    exists n' e' z',
      adjust_vector (mkVin (Some lt) (Some lat) (Some n) (Some e) (Some z) vq (Some plt) (Some plat) (Some A) pq)
        = Ok (Some n', Some e', Some z') /\
      n' ^ 2 + e' ^ 2 = n ^ 2 + e ^ 2 /\
      ((~ (n = 0 /\ e = 0) \/ A = 0 \/ A = 180) -> z' = z /\ n' ^ 2 + e' ^ 2 + z' ^ 2 = n ^ 2 + e ^ 2 + z ^ 2).
Proof.
  intros lt lat n e z vq plt plat A pq HA V P.
  destruct (Req_dec A 0) as [-> |A0]; [|destruct (Req_dec A 180) as [-> |A1]].
  - destruct (Rle_dec plat lat) as [L|L].
    + exists (- n), (- e), z. split; [now apply special_at|]. split; [ring|]. intros _. split; [reflexivity|ring].
    + exists n, e, z. split; [now apply special_aligned|]. split; [ring|]. intros _. split; reflexivity.
  - exists n, e, z. split; [apply special_opposed|]. split; [ring|]. intros _. split; reflexivity.
  - assert (ZD : n = 0 /\ e = 0 \/ ~ (n = 0 /\ e = 0)) by (destruct (Req_dec n 0), (Req_dec e 0); tauto).
    destruct ZD as [[-> ->]|NZ].
    + exists 0, 0, 0. split; [now apply adjust_zero|]. split; [ring|]. intros [H|[H|H]]; [tauto|contradiction|contradiction].
    + destruct (hours_east_exists lt plt) as [dl HE].
      pose proof (C48_adjust_is_rotation lt (Some lat) n e (Some z) vq plt (Some plat) A pq dl ltac:(lra) NZ V P HE) as R. cbv zeta in R.
      set (s := if Rlt_dec dl 12 then 1 else -1) in *.
      assert (SS : s * s = 1) by (unfold s; destruct (Rlt_dec dl 12); lra).
      do 3 eexists. split; [exact R|].
      assert (M : (n * cos (deg A) + s * e * sin (deg A)) ^ 2 + (e * cos (deg A) - s * n * sin (deg A)) ^ 2 = n ^ 2 + e ^ 2).
      { transitivity ((n ^ 2 + e ^ 2) * (cos (deg A) * cos (deg A)) + s * s * (n ^ 2 + e ^ 2) * (sin (deg A) * sin (deg A))); [ring|].
        rewrite SS, sc2. ring. }
      split; [exact M|]. intros _. split; [reflexivity|]. rewrite M. reflexivity.
Qed.
Theorem C49_vertical_kept_refuted :
  ~ (forall lt lat n e z plt plat A n' e' z', 0 < A < 180 ->
       adjust_vector (mkVin (Some lt) (Some lat) (Some n) (Some e) (Some z) 0 (Some plt) (Some plat) (Some A) 0)
         = Ok (Some n', Some e', Some z') -> z' = z).
Proof.
  intros H. specialize (H 6 70 0 0 5 0 86 45 0 0 0 ltac:(lra)). rewrite adjust_zero in H by lra. specialize (H eq_refl). lra.
Qed.
Example C49_case : 0 <= 90 <= 180 /\ ~ (3 = 0 /\ -4 = 0) /\ 3 ^ 2 + (-4) ^ 2 + 5 ^ 2 = (-4) ^ 2 + (-3) ^ 2 + 5 ^ 2.
Proof. lra. Qed.
Print Assumptions C49_magnitude_preserved_partial.
Print Assumptions C49_vertical_kept_refuted.

(** ** C50 *)
Theorem C50_pole_angle_partial :
  (* missing: data on the meridian of the pole, C50_pole_angle_aligned_partial *)
  forall lt lat plt plat,
    -90 < lat < 90 -> -90 <= plat <= 90 -> plat <> 0 -> off_meridian lt plt ->
    exists A, calc_vec_pole_angle (Some lt) (Some lat) (Some plt) (Some plat) = Ok (Some A) /\
      pole_angle_elem (Some lt) (Some lat) (Some plt) (Some plat) = Ok (Some A) /\
      angle_between (towards (place lat lt) (base_pole plat)) (towards (place lat lt) (place plat plt)) A.
Proof.
  intros a v b p V P NP O. destruct (pole_angle_general a v b p O V P NP) as [A (E1 & E2 & B & C)].
  exists A. split; [exact E1|]. split; [exact E2|]. now apply pole_angle_between.
Qed.
(** The angle is the only one: neither direction vanishes. *)
Lemma angle_unique lt lat plt plat A A' :
  -90 < lat < 90 -> -90 <= plat <= 90 -> plat <> 0 -> off_meridian lt plt ->
  angle_between (towards (place lat lt) (base_pole plat)) (towards (place lat lt) (place plat plt)) A ->
  angle_between (towards (place lat lt) (base_pole plat)) (towards (place lat lt) (place plat plt)) A' -> A = A'.
Proof.
  intros V P NP O [B C] [B' C']. rewrite towards_base, towards_dest, !norm_frame in *.
  pose proof (un_we_pos lt lat plt plat O V P) as Y. apply sqrt_lt_R0 in Y.
  assert (X : 0 < sqrt (((if Rlt_dec plat 0 then -1 else 1) * cos (deg lat)) ^ 2 + 0 ^ 2)).
  { apply sqrt_lt_R0. pose proof (cos_deg_pos lat V). assert (0 < cos (deg lat) * cos (deg lat)) by (apply Rmult_lt_0_compat; lra).
    destruct (Rlt_dec plat 0); simpl; lra. }
  set (k := sqrt _ * sqrt _) in *. assert (K : 0 < k) by (apply Rmult_lt_0_compat; assumption).
  assert (E : cos (deg A) = cos (deg A')) by (apply (Rmult_eq_reg_r k); [congruence|lra]).
  pose proof PI_RGT_0. assert (0 <= deg A <= PI /\ 0 <= deg A' <= PI) as [D D'] by (unfold deg; split; nra).
  assert (F : deg A = deg A').
  { destruct (Rtotal_order (deg A) (deg A')) as [L|[L|L]]; [|exact L|].
    - apply cos_decreasing_1 in L; lra.
    - apply cos_decreasing_1 in L; lra. }
  unfold deg in F. apply (Rmult_eq_reg_r (PI / 180)); [lra|]. apply Rgt_not_eq. lra.
Qed.
Theorem C50_pole_angle_aligned_partial :
  (* missing: data beyond the pole on the opposite meridian, and data in the other
     hemisphere on the same one (C50_pole_angle_refuted, C50_other_hemisphere_refuted) *)
  forall lt lat plt plat,
    -90 < lat < 90 -> 0 < plat <= 90 ->
    (same_meridian lt plt /\ - plat <= lat /\ lat <> plat) \/ (opposite_meridian lt plt /\ lat <= plat /\ lat <> - plat) ->
    exists A, calc_vec_pole_angle (Some lt) (Some lat) (Some plt) (Some plat) = Ok (Some A) /\
      pole_angle_elem (Some lt) (Some lat) (Some plt) (Some plat) = Ok (Some A) /\
      angle_between (towards (place lat lt) (base_pole plat)) (towards (place lat lt) (place plat plt)) A.
Proof.
  intros a v b p V P H. pose proof PI_RGT_0 as Hpi. pose proof (cos_deg_pos v V) as CV.
  assert (AB : forall U A, un a v b p = U -> we a v b p = 0 -> 0 < U /\ A = 0 \/ U < 0 /\ A = 180 ->
     angle_between (towards (place v a) (base_pole p)) (towards (place v a) (place p b)) A).
  { intros U A HU HW K. split; [lra|]. rewrite towards_base, towards_dest, !norm_frame, dot_frame, HU, HW.
    destruct (Rlt_dec p 0); [lra|].
    rewrite (sqrt_sq0 (1 * cos (deg v))) by lra.
    destruct K as [[K ->]|[K ->]].
    - rewrite sqrt_sq0 by exact K. replace (deg 0) with 0 by (unfold deg; field). rewrite cos_0. ring.
    - rewrite sqrt_sq0_neg by exact K. rewrite deg_180, cos_PI. ring. }
  destruct H as [[M [L1 L2]]|[M [L1 L2]]].
  - destruct (aligned_angle a v b p 0 ltac:(now left) M) as [E1 E2]. eexists. split; [exact E1|]. split; [exact E2|].
    destruct (un_same a v b p M) as [U W]. apply (AB _ _ U W).
    rewrite (Rabs_pos_eq p) by lra. destruct (Rlt_dec p (Rabs v)) as [Q|Q].
    + right. split; [|reflexivity]. assert (p < v) by (unfold Rabs in Q; destruct (Rcase_abs v); lra).
      assert (0 < sin (deg (v - p))) by (apply sin_deg_pos; lra). replace (deg (p - v)) with (- deg (v - p)) by (unfold deg; field).
      rewrite sin_neg. lra.
    + left. split; [|reflexivity]. assert (v < p) by (unfold Rabs in Q; destruct (Rcase_abs v); lra). apply sin_deg_pos. lra.
  - destruct (aligned_angle a v b p 12 ltac:(now right) M) as [E1 E2]. eexists. split; [exact E1|]. split; [exact E2|].
    destruct (un_opposite a v b p M) as [U W]. apply (AB _ _ U W).
    rewrite (Rabs_pos_eq p) by lra. destruct (Rlt_dec p (Rabs v)) as [Q|Q].
    + right. split; [|reflexivity]. assert (v < - p) by (unfold Rabs in Q; destruct (Rcase_abs v); lra).
      assert (0 < sin (deg (- (p + v)))) by (apply sin_deg_pos; lra). replace (deg (p + v)) with (- deg (- (p + v))) by (unfold deg; field).
      rewrite sin_neg. lra.
    + left. split; [|reflexivity]. assert (- p < v) by (unfold Rabs in Q; destruct (Rcase_abs v); lra). apply sin_deg_pos. lra.
Qed.
(** Data at latitude 80, pole at latitude 70 on the opposite meridian: both poles
    are due north, but the angle returned is 180. *)
Theorem C50_pole_angle_refuted :
  let x := place 80 0 in
  calc_vec_pole_angle (Some 0) (Some 80) (Some 12) (Some 70) = Ok (Some 180) /\
  angle_between (towards x (base_pole 70)) (towards x (place 70 12)) 0 /\
  ~ angle_between (towards x (base_pole 70)) (towards x (place 70 12)) 180.
Proof.
  cbv zeta. assert (M : opposite_meridian 0 12) by (exists 0%Z; lra).
  destruct (aligned_angle 0 80 12 70 12 ltac:(now right) M) as [E _]. rewrite E.
  rewrite (Rabs_pos_eq 70), (Rabs_pos_eq 80) by lra. destruct (Rlt_dec 70 80); [|lra]. split; [reflexivity|].
  destruct (un_opposite 0 80 12 70 M) as [U W]. pose proof (cos_deg_pos 80 ltac:(lra)) as CV.
  assert (S : 0 < sin (deg (70 + 80))) by (apply sin_deg_pos; lra).
  unfold angle_between. rewrite towards_base, towards_dest, !norm_frame, dot_frame, U, W.
  destruct (Rlt_dec 70 0); [lra|]. rewrite (sqrt_sq0 (1 * cos (deg 80))), (sqrt_sq0 (sin (deg (70 + 80)))) by lra. split.
  - split; [lra|]. replace (deg 0) with 0 by (unfold deg; field). rewrite cos_0. ring.
  - intros [_ H]. rewrite deg_180, cos_PI in H. assert (0 < cos (deg 80) * sin (deg (70 + 80))) by (apply Rmult_lt_0_compat; lra). lra.
Qed.
Theorem C50_other_hemisphere_refuted :
  let x := place (-80) 0 in
  calc_vec_pole_angle (Some 0) (Some (-80)) (Some 0) (Some 70) = Ok (Some 180) /\
  angle_between (towards x (base_pole 70)) (towards x (place 70 0)) 0 /\
  ~ angle_between (towards x (base_pole 70)) (towards x (place 70 0)) 180.
Proof.
  cbv zeta. assert (M : same_meridian 0 0) by (exists 0%Z; lra).
  destruct (aligned_angle 0 (-80) 0 70 0 ltac:(now left) M) as [E _]. rewrite E.
  rewrite (Rabs_pos_eq 70), (Rabs_left (-80)) by lra. destruct (Rlt_dec 70 (- -80)); [|lra]. split; [reflexivity|].
  destruct (un_same 0 (-80) 0 70 M) as [U W]. pose proof (cos_deg_pos (-80) ltac:(lra)) as CV.
  assert (S : 0 < sin (deg (70 - -80))) by (apply sin_deg_pos; lra).
  unfold angle_between. rewrite towards_base, towards_dest, !norm_frame, dot_frame, U, W.
  destruct (Rlt_dec 70 0); [lra|]. rewrite (sqrt_sq0 (1 * cos (deg (-80)))), (sqrt_sq0 (sin (deg (70 - -80)))) by lra. split.
  - split; [lra|]. replace (deg 0) with 0 by (unfold deg; field). rewrite cos_0. ring.
  - intros [_ H]. rewrite deg_180, cos_PI in H. assert (0 < cos (deg (-80)) * sin (deg (70 - -80))) by (apply Rmult_lt_0_compat; lra). lra.
Qed.
Example C50_case : -90 < 72 < 90 /\ -90 <= 86 <= 90 /\ 86 <> 0 /\ off_meridian 22 3.
Proof.
  repeat split; try lra. intros [k K]. assert (E : IZR (12 * k - 19) = IZR 0) by (rewrite minus_IZR, mult_IZR; lra).
  apply eq_IZR in E. lia.
Qed.
Print Assumptions C50_pole_angle_partial.
Print Assumptions C50_pole_angle_aligned_partial.
Print Assumptions C50_pole_angle_refuted.
Print Assumptions C50_other_hemisphere_refuted.

(** ** C51 *)
Theorem C51_components_along_pole_direction :
  forall lt lat n e z phi_cent r_cent,
    -90 < lat < 90 -> 0 <= r_cent < 90 -> off_meridian lt (phi_cent / 15) ->
    let x := place lat lt in
    let pole := place (90 - r_cent) (phi_cent / 15) in
    exists n' e' z',
      vector_to_boundary (Some lt) (Some lat) (Some n) (Some e) (Some z) (Some phi_cent) (Some r_cent)
        = Ok (Some n', Some e', Some z') /\
      seen_along x (towards x pole) (horizontal lat lt n e) n' e' /\
      0 < norm3 (towards x pole) /\
      (~ (n = 0 /\ e = 0) -> z' = z).
Proof.
  intros lt lat n e z phi r V Hr O x pole.
  destruct (to_boundary_off lt lat n e z phi r O V Hr) as (n' & e' & z' & E & S & Z).
  exists n', e', z'. split; [exact E|]. split; [exact S|]. split.
  - unfold pole, x. rewrite towards_dest, norm_frame. apply sqrt_lt_R0. apply un_we_pos; [exact O|exact V|lra].
  - intros N. destruct Z as [Z|Z]; [exact Z|contradiction].
Qed.
Example C51_case : -90 < 72 < 90 /\ 0 <= 4 < 90 /\ off_meridian 22 (50 / 15).
Proof.
  split; [lra|]. split; [lra|]. intros [k K]. assert (E : IZR (180 * k - 280) = IZR 0) by (rewrite minus_IZR, mult_IZR; lra).
  apply eq_IZR in E. lia.
Qed.
Print Assumptions C51_components_along_pole_direction.

(** ** C52 *)
Lemma to_boundary_aligned lt v n e z phi r m : (m = 0 \/ m = 12) -> shifted 24 (phi / 15 - lt) m -> -90 < v < 90 -> 0 <= r < 90 ->
  vector_to_boundary (Some lt) (Some v) (Some n) (Some e) (Some z) (Some phi) (Some r) =
  Ok (if Req_EM_T v (90 - r) then (Some (- n), Some (- e), Some z) else (Some n, Some e, Some z)).
Proof.
  intros M K V Hr. destruct (pole_loc_spec phi r) as [b (E & B & S)].
  unfold vector_to_boundary. rewrite E. cbn [bind fst snd].
  assert (K' : shifted 24 (b - lt) m).
  { eapply shifted_trans; [|exact K]. apply shifted_sub. now apply shifted_sym. }
  destruct (aligned_angle lt v b (90 - r) m M K') as [E1 _]. rewrite E1. cbn [bind].
  match goal with |- context [define_pole_quadrants ?a ?b ?c] => destruct (pole_quad_total a b c) as [q Q]; rewrite Q end. cbn [bind].
  rewrite (Rabs_pos_eq (90 - r)) by lra.
  destruct (Rlt_dec (90 - r) (Rabs v)) as [L|L].
  - rewrite special_opposed. destruct (Req_EM_T v (90 - r)) as [Z|Z]; [|reflexivity]. rewrite Z, Rabs_pos_eq in L by lra. lra.
  - destruct (Req_EM_T v (90 - r)) as [Z|Z].
    + rewrite special_at by lra. reflexivity.
    + rewrite special_aligned; [reflexivity|]. unfold Rabs in L. destruct (Rcase_abs v); lra.
Qed.
Theorem C52_aligned_poles_partial :
  (* missing: data poleward of the boundary pole on its meridian, or at its latitude
     on the opposite meridian (C52_beyond_pole_refuted, C52_opposite_refuted) *)
  forall lt lat n e z phi_cent r_cent,
    -90 < lat < 90 -> 0 <= r_cent < 90 ->
    (same_meridian lt (phi_cent / 15) /\ lat < 90 - r_cent) \/
    (opposite_meridian lt (phi_cent / 15) /\ - (90 - r_cent) < lat /\ lat <> 90 - r_cent) ->
    let x := place lat lt in
    let pole := place (90 - r_cent) (phi_cent / 15) in
    vector_to_boundary (Some lt) (Some lat) (Some n) (Some e) (Some z) (Some phi_cent) (Some r_cent)
      = Ok (Some n, Some e, Some z) /\
    seen_along x (towards x pole) (horizontal lat lt n e) n e.
Proof.
  intros lt v n e z phi r V Hr H x pole.
  assert (NE : v <> 90 - r) by (destruct H as [[_ H]|[_ [_ H]]]; lra).
  split.
  - assert (M : exists m, (m = 0 \/ m = 12) /\ shifted 24 (phi / 15 - lt) m).
    { destruct H as [[H _]|[H _]]; [exists 0|exists 12]; auto. }
    destruct M as [m [M K]]. rewrite (to_boundary_aligned lt v n e z phi r m M K V Hr).
    destruct (Req_EM_T v (90 - r)); [contradiction|reflexivity].
  - unfold x, pole. destruct H as [[H L]|[H [L _]]].
    + destruct (un_same lt v (phi / 15) (90 - r) H) as [U W].
      assert (0 < sin (deg (90 - r - v))) by (apply sin_deg_pos; lra).
      apply seen_along_intro; rewrite U, W, sqrt_sq0 by assumption; ring.
    + destruct (un_opposite lt v (phi / 15) (90 - r) H) as [U W].
      assert (0 < sin (deg (90 - r + v))) by (apply sin_deg_pos; lra).
      apply seen_along_intro; rewrite U, W, sqrt_sq0 by assumption; ring.
Qed.
(** Poleward of the boundary pole on its own meridian that pole is due south, but
    the vector is returned unchanged. *)
Theorem C52_beyond_pole_refuted :
  forall lt lat n e z phi_cent r_cent,
    0 <= r_cent < 90 -> 90 - r_cent < lat < 90 -> same_meridian lt (phi_cent / 15) -> ~ (n = 0 /\ e = 0) ->
    let x := place lat lt in
    let pole := place (90 - r_cent) (phi_cent / 15) in
    vector_to_boundary (Some lt) (Some lat) (Some n) (Some e) (Some z) (Some phi_cent) (Some r_cent)
      = Ok (Some n, Some e, Some z) /\
    seen_along x (towards x pole) (horizontal lat lt n e) (- n) (- e) /\
    ~ seen_along x (towards x pole) (horizontal lat lt n e) n e.
Proof.
  intros lt v n e z phi r Hr V H NZ x pole. split.
  - rewrite (to_boundary_aligned lt v n e z phi r 0) by (auto || lra). destruct (Req_EM_T v (90 - r)); [lra|reflexivity].
  - unfold x, pole. destruct (un_same lt v (phi / 15) (90 - r) H) as [U W].
    assert (S : 0 < sin (deg (v - (90 - r)))) by (apply sin_deg_pos; lra).
    assert (S' : sin (deg (90 - r - v)) < 0).
    { replace (deg (90 - r - v)) with (- deg (v - (90 - r))) by (unfold deg; field). rewrite sin_neg. lra. }
    split.
    + apply seen_along_intro; rewrite U, W, sqrt_sq0_neg by assumption; ring.
    + unfold seen_along, horizontal. rewrite towards_dest, norm_frame, dot_frame, cross_frame, dot_frame, U, W, sqrt_sq0_neg by assumption.
      set (k := sin (deg (90 - r - v))) in *. intros [A B]. apply NZ.
      split; apply (Rmult_eq_reg_r (2 * k)); lra.
Qed.
(** On the opposite meridian at the latitude of the boundary pole both poles are due
    north, but the vector is reversed. *)
Theorem C52_opposite_refuted :
  forall lt n e z phi_cent r_cent,
    0 < r_cent < 90 -> opposite_meridian lt (phi_cent / 15) -> ~ (n = 0 /\ e = 0) ->
    let lat := 90 - r_cent in
    let x := place lat lt in
    let pole := place (90 - r_cent) (phi_cent / 15) in
    vector_to_boundary (Some lt) (Some lat) (Some n) (Some e) (Some z) (Some phi_cent) (Some r_cent)
      = Ok (Some (- n), Some (- e), Some z) /\
    seen_along x (towards x pole) (horizontal lat lt n e) n e /\
    ~ seen_along x (towards x pole) (horizontal lat lt n e) (- n) (- e).
Proof.
  intros lt n e z phi r Hr H NZ v x pole. split.
  - rewrite (to_boundary_aligned lt v n e z phi r 12) by (auto || unfold v; lra). destruct (Req_EM_T v (90 - r)) as [Q|Q]; [reflexivity|].
    exfalso. now apply Q.
  - unfold x, pole. destruct (un_opposite lt v (phi / 15) (90 - r) H) as [U W].
    assert (S : 0 < sin (deg (90 - r + v))) by (apply sin_deg_pos; unfold v; lra).
    split.
    + apply seen_along_intro; rewrite U, W, sqrt_sq0 by assumption; ring.
    + unfold seen_along, horizontal. rewrite towards_dest, norm_frame, dot_frame, cross_frame, dot_frame, U, W, sqrt_sq0 by assumption.
      set (k := sin (deg (90 - r + v))) in *. intros [A B]. apply NZ.
      split; apply (Rmult_eq_reg_r (2 * k)); lra.
Qed.
Example C52_case : same_meridian 6 (90 / 15) /\ 70 < 90 - 5 /\ same_meridian 6 (90 / 15) /\ 90 - 5 < 87 < 90 /\ opposite_meridian 18 (90 / 15).
Proof. repeat split; try lra; try (exists 0%Z; lra). exists 1%Z. lra. Qed.
Print Assumptions C52_aligned_poles_partial.
Print Assumptions C52_beyond_pole_refuted.
Print Assumptions C52_opposite_refuted.

(** ** C53 *)
(** The location used for the pole of any boundary is the northern one. *)
Theorem C53_pole_always_northern_refuted :
  forall phi_cent r_cent, 0 <= r_cent < 90 ->
    exists plt plat, get_pole_loc (Some phi_cent) (Some r_cent) = Ok (Some plt, Some plat) /\
      place plat plt = place (90 - r_cent) (phi_cent / 15) /\ 0 < plat /\
      place plat plt <> place (- (90 - r_cent)) (phi_cent / 15).
Proof.
  intros phi r Hr. destruct (pole_loc_spec phi r) as [b (E & B & S)]. exists b, (90 - r). split; [exact E|].
  assert (EP : place (90 - r) b = place (90 - r) (phi / 15)).
  { unfold place. assert (T : shifted (2 * PI) (hr (phi / 15)) (hr b)) by (destruct S as [k ->]; exists k; unfold hr; field).
    destruct (shifted_trig _ _ T) as [C D]. now rewrite C, D. }
  split; [exact EP|]. split; [lra|]. rewrite EP. intros Q. apply (f_equal snd) in Q. cbn [place snd] in Q.
  assert (0 < sin (deg (90 - r))) by (apply sin_deg_pos; lra).
  replace (deg (- (90 - r))) with (- deg (90 - r)) in Q by (unfold deg; field). rewrite sin_neg in Q. lra.
Qed.
(** So a southern vector is not described relative to the centre of its boundary,
    neither towards it nor away from it. *)
Theorem C53_southern_vectors_refuted :
  let x := place (-70) 6 in
  let t := towards x (place (-85) 0) in
  exists n' e', vector_to_boundary (Some 6) (Some (-70)) (Some 1) (Some 0) (Some 0) (Some 0) (Some 5) = Ok (Some n', Some e', Some 0) /\
    ~ seen_along x t (horizontal (-70) 6 1 0) n' e' /\
    ~ seen_along x (lin (-1) t 0 t) (horizontal (-70) 6 1 0) n' e'.
Proof.
  cbv zeta.
  assert (O : off_meridian 6 (0 / 15)).
  { intros [k K]. assert (E : IZR (12 * k - 6) = IZR 0) by (rewrite minus_IZR, mult_IZR; lra). apply eq_IZR in E. lia. }
  destruct (to_boundary_off 6 (-70) 1 0 0 0 5 O ltac:(lra) ltac:(lra)) as (n' & e' & z' & E & S & Z).
  assert (z' = 0) by (destruct Z as [Z|Z]; lra). subst z'. exists n', e'. split; [exact E|].
  unfold seen_along, horizontal in *. rewrite towards_dest, norm_frame, dot_frame, cross_frame, dot_frame in S.
  assert (UW : forall p b, b = 0 -> un 6 (-70) b p = cos (deg (-70)) * sin (deg p) /\ we 6 (-70) b p = - cos (deg p)).
  { intros p b ->. unfold un, we. replace (hr (0 - 6)) with (- (PI / 2)) by (unfold hr; field).
    rewrite cos_neg, sin_neg, cos_PI2, sin_PI2. split; ring. }
  assert (EL : forall k u w, lin (-1) (lin u (north (-70) 6) w (east (-70) 6)) 0 k = lin (- u) (north (-70) 6) (- w) (east (-70) 6)).
  { intros k u w. destruct k as [[k1 k2] k3]. unfold lin, north, east. cbn [fst snd]. apply f_equal2; [apply f_equal2|]; ring. }
  rewrite towards_dest, EL, !norm_frame, !dot_frame, !cross_frame, !dot_frame.
  replace (90 - 5) with 85 in S by lra.
  destruct (UW 85 (0 / 15) ltac:(field)) as [U1 W1]. destruct (UW (-85) 0 eq_refl) as [U2 W2]. rewrite U1, W1 in S. rewrite U2, W2.
  replace (deg (-85)) with (- deg 85) by (unfold deg; field). rewrite sin_neg, cos_neg.
  pose proof (cos_deg_pos (-70) ltac:(lra)) as C7. pose proof (cos_deg_pos 85 ltac:(lra)) as C8. pose proof (sin_deg_pos 85 ltac:(lra)) as S8.
  set (u := cos (deg (-70)) * sin (deg 85)) in *. assert (0 < u) by (apply Rmult_lt_0_compat; assumption).
  replace (cos (deg (-70)) * - sin (deg 85)) with (- u) by (unfold u; ring). set (w := cos (deg 85)) in *.
  replace ((- u) ^ 2 + (- w) ^ 2) with (u ^ 2 + w ^ 2) by ring. replace ((- - u) ^ 2 + (- - w) ^ 2) with (u ^ 2 + w ^ 2) by ring.
  replace (u ^ 2 + (- w) ^ 2) with (u ^ 2 + w ^ 2) in S by ring.
  destruct S as [S1 S2]. split; intros [T1 T2]; lra.
Qed.
Example C53_case : exists plt, get_pole_loc (Some 0) (Some 5) = Ok (Some plt, Some 85).
Proof. destruct (pole_loc_spec 0 5) as [b (E & _)]. exists b. rewrite E. now replace (90 - 5) with 85 by lra. Qed.
Print Assumptions C53_pole_always_northern_refuted.
Print Assumptions C53_southern_vectors_refuted.

(** ** C82 *)
(** Nothing but the two special cases: no horizontal part, or aligned poles. *)
Definition general_case (v : vin) : Prop :=
  ~ (v_n v = Some 0 /\ v_e v = Some 0) /\ p_ang v <> Some 0 /\ p_ang v <> Some 180.
Lemma feq_true a b : feq a (Some b) = true <-> a = Some b.
Proof. destruct a as [x|]; cbn; [destruct (Req_EM_T x b)|]; split; congruence. Qed.
Lemma general_special v : general_case v <-> special v = None.
Proof.
  rewrite special_norm. unfold general_case, is_norm, is_zero, is_ns. rewrite negb_true_iff, orb_false_iff, orb_false_iff, andb_false_iff.
  rewrite <- !not_true_iff_false, !feq_true. 
  destruct (v_n v) as [n|]; destruct (v_e v) as [e|]; try (split; intros; intuition congruence).
  destruct (Req_EM_T n 0) as [-> |N]; [destruct (Req_EM_T e 0) as [-> |E]|]; split; intros; intuition congruence.
Qed.
Lemma Forall2_impl {A B} (P Q : A -> B -> Prop) l r : (forall x y, P x y -> Q x y) -> Forall2 P l r -> Forall2 Q l r.
Proof. intros H F. induction F; constructor; auto. Qed.
Theorem C82_arrays_elementwise :
  forall vs,
    (* quadrants computed by the package, or left to adjust_vector *)
    (forall v, In v vs ->
       (v_q v = 0%Z \/ v_q v = define_vect_quadrants (v_n v) (v_e v)) /\
       (p_q v = 0%Z \/ define_pole_quadrants (v_lt v) (p_lt v) (p_ang v) = Ok (p_q v))) ->
    (* no general case, or one without NaN *)
    (forall v, In v vs -> ~ general_case v) \/ (exists v, In v vs /\ general_case v /\ defined v) ->
    exists rs, adjust_vectors vs = Ok rs /\
      Forall2 (fun v r =>
        ((~ general_case v \/ defined v) -> adjust_vector v = Ok r) /\
        (general_case v -> ~ defined v -> r = (None, None, None))) vs rs.
Proof.
  intros vs C H. destruct (adjust_vectors_spec vs C) as [rs [E F]].
  { destruct H as [H|[v [H1 [H2 H3]]]]; [left|right].
    - intros v Hv S. apply (H v Hv). now apply general_special.
    - exists v. split; [exact H1|]. split; [now apply general_special|exact H3]. }
  exists rs. split; [exact E|]. eapply Forall2_impl; [|exact F]. intros v r [F1 F2]. split.
  - intros [G|D]; apply F1; [left|now right]. intros S. apply G. now apply general_special.
  - intros G. apply F2. now apply general_special.
Qed.
(** A vector without horizontal part, one with a NaN and a general one. *)
Definition vset : list vin :=
  [ mkVin (Some 22) (Some 70) (Some 0) (Some 0) (Some 5) 0 (Some 4) (Some 85) (Some 90) 0;
    mkVin (Some 22) (Some 70) None (Some 1) (Some 5) 0 (Some 4) (Some 85) (Some 90) 0;
    mkVin (Some 22) (Some 70) (Some 3) (Some (-4)) (Some 5) 0 (Some 4) (Some 85) (Some 90) 0 ].
Example C82_case : adjust_vectors vset = Ok [(Some 0, Some 0, Some 0); (None, None, None); (Some (-4), Some (-3), Some 5)].
Proof.
  assert (G : forall n e, ~ (n = Some 0 /\ e = Some 0) -> general_case (mkVin (Some 22) (Some 70) n e (Some 5) 0 (Some 4) (Some 85) (Some 90) 0)).
  { intros n e H. split; [exact H|]. cbn. split; intros Q; injection Q; lra. }
  destruct (C82_arrays_elementwise vset) as [rs [E F]].
  { intros v Hv. cbn in Hv. destruct Hv as [<- |[<- |[<- |[]]]]; cbn; auto. }
  { right. exists (mkVin (Some 22) (Some 70) (Some 3) (Some (-4)) (Some 5) 0 (Some 4) (Some 85) (Some 90) 0). split; [cbn; auto|].
    split; [apply G; intros [Q _]; injection Q; lra|]. repeat split; discriminate. }
  rewrite E. f_equal. unfold vset in F.
  inversion F as [|? r1 ? l1 [A1 _] F1]; subst. inversion F1 as [|? r2 ? l2 [_ A2] F2]; subst. inversion F2 as [|? r3 ? l3 [A3 _] F3]; subst.
  inversion F3; subst. clear E F F1 F2 F3.
  assert (R1 : r1 = (Some 0, Some 0, Some 0)).
  { rewrite adjust_zero in A1 by lra. assert (H : Ok (Some 0, Some 0, Some 0) = Ok r1).
    { apply A1. left. intros [H _]. apply H. auto. } now injection H. }
  assert (R2 : r2 = (None, None, None)).
  { apply A2; [apply G; intros [Q _]; discriminate|]. intros (_ & _ & H & _). now apply H. }
  assert (R3 : r3 = (Some (-4), Some (-3), Some 5)).
  { destruct C48_case as (_ & _ & _ & K). rewrite K in A3.
    assert (H : Ok (Some (-4), Some (-3), Some 5) = Ok r3).
    { apply A3. right. repeat split; discriminate. } now injection H. }
  now rewrite R1, R2, R3.
Qed.
Print Assumptions C82_arrays_elementwise.

(** ** C83 *)
Lemma filter_all {A} (f : A -> bool) l : (forall x, In x l -> f x = true) -> filter f l = l.
Proof. induction l as [|x l IH]; intros H; cbn; [reflexivity|]. rewrite H by now left. rewrite IH; [reflexivity|]. intros; apply H; now right. Qed.
Lemma Forall2_and_in {A B} (P : A -> B -> Prop) l r : Forall2 P l r -> Forall2 (fun x y => In x l /\ P x y) l r.
Proof.
  intros F. assert (G : forall l', incl l l' -> Forall2 (fun x y => In x l' /\ P x y) l r).
  { induction F as [|x y l r H F IH]; intros l' I; constructor; [split; [apply I; now left|exact H]|].
    apply IH. intros z Z. apply I. now right. }
  apply G, incl_refl.
Qed.
(** One vector and several boundary poles. *)
Theorem C83_one_vector_many_poles_partial :
  (* missing: sets in which some pole is aligned, C83_aligned_pole_dropped_refuted *)
  forall vs,
    (forall v, In v vs ->
       (v_q v = 0%Z \/ v_q v = define_vect_quadrants (v_n v) (v_e v)) /\
       (p_q v = 0%Z \/ define_pole_quadrants (v_lt v) (p_lt v) (p_ang v) = Ok (p_q v))) ->
    (forall v, In v vs -> general_case v /\ defined v) ->
    exists rs, adjust_one vs = Ok rs /\ Forall2 (fun v r => adjust_vector v = Ok r) vs rs.
Proof.
  intros vs C H. destruct vs as [|w ws].
  { exists []. split; [reflexivity|constructor]. }
  set (vs := w :: ws) in *.
  assert (SP : forall v, In v vs -> special v = None) by (intros v Hv; apply general_special, (H v Hv)).
  destruct (adjust_vectors_spec vs C) as [rs [E F]].
  { right. exists w. assert (In w vs) by now left. split; [assumption|]. split; [now apply SP|now apply H]. }
  exists rs. split.
  - unfold adjust_vectors in E. unfold adjust_one. destruct (existsb is_norm vs) eqn:EX.
    2:{ exfalso. assert (existsb is_norm vs = true); [|congruence]. apply existsb_exists. exists w. split; [now left|].
        apply special_norm, SP. now left. }
    destruct (requad_map vs) as (rv & rp & ER & RV & RP). rewrite ER in *. cbn [bind] in *.
    destruct (negb (existsb (fun v => quad_ok (p_q v)) (map (requad1 rv rp) vs))); [discriminate|].
    destruct (negb (existsb (fun v => quad_ok (v_q v)) (map (requad1 rv rp) vs))); [discriminate|].
    rewrite <- E. f_equal. rewrite filter_all.
    + apply map_ext_in. intros u Hu. apply in_map_iff in Hu. destruct Hu as [v [<- Hv]].
      assert (SU : special (requad1 rv rp v) = None) by exact (SP v Hv). rewrite SU.
      assert (Q : v_q (requad1 rv rp v) = define_vect_quadrants (v_n v) (v_e v) /\
                  define_pole_quadrants (v_lt v) (p_lt v) (p_ang v) = Ok (p_q (requad1 rv rp v))).
      { apply requad1_quads; [now apply C| |]; intros Z0 Z; pose proof (proj1 (special_norm v) (SP v Hv)) as NM.
        - assert (T : existsb (fun v => v_q v =? 0)%Z (filter is_norm vs) = true).
          { apply existsb_exists. exists v. split; [now apply filter_In|]. now rewrite Z. } congruence.
        - assert (T : existsb (fun v => p_q v =? 0)%Z (filter is_norm vs) = true).
          { apply existsb_exists. exists v. split; [now apply filter_In|]. now rewrite Z. } congruence. }
      destruct Q as [Q1 Q2]. set (u := requad1 rv rp v) in *.
      assert (D : defined v) by (apply H; exact Hv).
      pose proof (elem_defined u SU D (conj (or_intror Q1) (or_intror Q2)) Q1 Q2) as EL.
      destruct D as (D1 & D2 & D3 & D4 & D5).
      unfold elem_normal. cbn [fst snd].
      assert (M : isnan (vmag (v_n u) (v_e u)) = false).
      { change (v_n u) with (v_n v). change (v_e u) with (v_e v). destruct (v_n v); [|congruence]. destruct (v_e v); [reflexivity|congruence]. }
      assert (DD : isnan (dest_angle (p_q u) (v_q u) (base_naz (v_n u) (v_e u)) (p_ang u)) = false).
      { change (v_n u) with (v_n v). change (v_e u) with (v_e v). change (p_ang u) with (p_ang v).
        destruct (special_zero v (SP v Hv)) as [_ ZZ]. unfold is_zero in ZZ.
        pose proof (vquad_ok v (conj D1 (conj D2 (conj D3 (conj D4 D5))))) as VO.
        pose proof (quad_zero_or v _ Q2 (conj D1 (conj D2 (conj D3 (conj D4 D5))))) as PO. rewrite <- Q1 in VO.
        destruct (v_n v) as [n|]; [|congruence]. destruct (v_e v) as [e|]; [|congruence]. destruct (p_ang v) as [g|]; [|congruence].
        destruct (azimuth n e) as (m & b & _ & E2 & _).
        { intros [-> ->]. assert (feq (Some 0) (Some 0) = true) by now apply feq_refl_iff. rewrite H0 in ZZ. discriminate. }
        rewrite E2. destruct (combos_val (p_q u) (v_q u) b g PO VO) as [d ->]. reflexivity. }
      rewrite M, DD. reflexivity.
    + intros u Hu. apply in_map_iff in Hu. destruct Hu as [v [<- Hv]]. apply special_norm. exact (SP v Hv).
  - eapply Forall2_impl; [|apply Forall2_and_in; exact F].
    intros v r [Hv [F1 _]]. apply F1. right. now apply H.
Qed.
(** An aligned pole among them: the result has one vector for two poles. *)
Definition vone : list vin :=
  [ mkVin (Some 22) (Some 70) (Some 3) (Some (-4)) (Some 5) 1 (Some 22) (Some 85) (Some 0) 1;
    mkVin (Some 22) (Some 70) (Some 3) (Some (-4)) (Some 5) 2 (Some 4) (Some 85) (Some 90) 4 ].
Theorem C83_aligned_pole_dropped_refuted :
  ~ (forall vs rs, adjust_one vs = Ok rs -> length rs = length vs).
Proof.
  intros H.
  assert (N1 : is_norm (nth 0 vone (mkVin None None None None None 0 None None None 0)) = false).
  { cbn. unfold is_norm, is_ns, is_zero. cbn [v_n v_e p_ang]. assert (feq (Some 0) (Some 0) = true) as -> by now apply feq_true.
    cbn [orb]. now rewrite orb_true_r. }
  assert (N2 : is_norm (nth 1 vone (mkVin None None None None None 0 None None None 0)) = true).
  { apply special_norm, general_special. split; cbn; [intros [Q _]; injection Q; lra|]. split; intros Q; injection Q; lra. }
  cbn [nth vone] in N1, N2. set (a := mkVin (Some 22) (Some 70) (Some 3) (Some (-4)) (Some 5) 1 (Some 22) (Some 85) (Some 0) 1) in *.
  set (b := mkVin (Some 22) (Some 70) (Some 3) (Some (-4)) (Some 5) 2 (Some 4) (Some 85) (Some 90) 4) in *.
  assert (R : exists r, adjust_one [a; b] = Ok [r]).
  { unfold adjust_one. cbn [existsb]. rewrite N1, N2. cbn [orb]. unfold requad. cbn [filter]. rewrite N1, N2.
    cbn [existsb v_q p_q a b Z.eqb orb mapE bind with_quads]. cbn [existsb p_q v_q quad_ok Z.leb Z.compare Pos.compare Pos.compare_cont andb orb negb].
    change (with_quads a 1 1) with a. change (with_quads b 2 4) with b. cbn [filter]. rewrite N1, N2. cbn [map]. eexists. reflexivity. }
  destruct R as [r R]. apply H in R. discriminate.
Qed.
Print Assumptions C83_one_vector_many_poles_partial.
Print Assumptions C83_aligned_pole_dropped_refuted.
