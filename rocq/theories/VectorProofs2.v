(** Proofs about vectors.py: the pole angle on the sphere and the whole adjustment. *)
From Coq Require Import Reals ZArith List Bool Lia Lra.
From Verif Require Import PyBase RangeModel RangeSpec RangeProofs CoordModel CoordSpec CoordProofs DualCoordModel
  VectorModel VectorSpec VectorProofs.
Import ListNotations.
Open Scope R_scope.

(** ** Local times *)
Lemma shifted_hr h x : shifted (2 * PI) (h * PI / 12) x -> cos x = cos (hr h) /\ sin x = sin (hr h).
Proof. intros S. destruct (shifted_trig _ _ S). unfold hr. auto. Qed.

Lemma del_long_spec a b : exists d, hr2rad (fmap2 Rminus (Some b) (Some a)) PI = Ok (Some d) /\
  - PI <= d < PI /\ cos d = cos (hr (b - a)) /\ sin d = sin (hr (b - a)) /\ shifted (2 * PI) (hr (b - a)) d.
Proof.
  cbn [fmap2]. destruct (hr2rad_spec (b - a) PI) as [d [E [B S]]]. exists d. split; [exact E|].
  split; [lra|]. destruct (shifted_hr _ _ S) as [C D]. split; [exact C|]. split; [exact D|exact S].
Qed.

Lemma on_meridian_iff d : on_meridian (Some d) = true <-> d = - PI \/ d = 0 \/ d = PI.
Proof.
  unfold on_meridian, feq. destruct (Req_EM_T d (- PI)), (Req_EM_T d 0), (Req_EM_T d PI); cbn; split; intuition congruence.
Qed.

Lemma off_meridian_sin a b : off_meridian a b -> sin (hr (b - a)) <> 0.
Proof.
  intros H Z. apply sin_eq_0_0 in Z. destruct Z as [k K]. apply H. exists (- k)%Z.
  rewrite opp_IZR. unfold hr in K. pose proof PI_RGT_0.
  assert (b - a = IZR k * 12).
  { apply (Rmult_eq_reg_r (PI / 12)); [lra|]. apply Rgt_not_eq. lra. }
  lra.
Qed.
Lemma off_meridian_branch a b d : off_meridian a b -> sin d = sin (hr (b - a)) -> on_meridian (Some d) = false.
Proof.
  intros H S. apply off_meridian_sin in H. destruct (on_meridian (Some d)) eqn:E; [|reflexivity].
  apply on_meridian_iff in E. exfalso. apply H. rewrite <- S. destruct E as [-> |[-> | ->]].
  - rewrite sin_neg, sin_PI. lra.
  - apply sin_0.
  - apply sin_PI.
Qed.

Lemma hours_east_exists a b : exists dl, hours_east a b dl.
Proof. destruct (del_lt_spec a b) as [d [_ H]]. now exists d. Qed.

Lemma hours_east_sin a b dl : hours_east a b dl ->
  (dl < 12 -> 0 <= sin (hr (b - a))) /\ (12 <= dl -> sin (hr (b - a)) <= 0).
Proof.
  intros [[k S] B]. pose proof PI_RGT_0.
  assert (E : sin (hr (b - a)) = sin (hr dl)).
  { symmetry. apply shifted_trig. exists k. unfold hr. rewrite S. field. }
  rewrite E. unfold hr. split; intros L.
  - apply sin_ge_0; nra.
  - apply sin_le_0; nra.
Qed.

(** ** Geometry *)
Lemma dot_place v a p b : dot (place v a) (place p b) =
  sin (deg v) * sin (deg p) + cos (deg v) * cos (deg p) * cos (hr (b - a)).
Proof.
  unfold dot, place. cbn [fst snd]. replace (hr (b - a)) with (hr b - hr a) by (unfold hr; field). rewrite cos_minus. ring.
Qed.
Lemma dot_north v a p b : dot (north v a) (place p b) =
  cos (deg v) * sin (deg p) - sin (deg v) * cos (deg p) * cos (hr (b - a)).
Proof.
  unfold dot, place, north. cbn [fst snd]. replace (hr (b - a)) with (hr b - hr a) by (unfold hr; field). rewrite cos_minus. ring.
Qed.
Lemma dot_east v a p b : dot (east v a) (place p b) = cos (deg p) * sin (hr (b - a)).
Proof.
  unfold dot, place, east. cbn [fst snd]. replace (hr (b - a)) with (hr b - hr a) by (unfold hr; field). rewrite sin_minus. ring.
Qed.
Lemma sc2 x : sin x * sin x = 1 - cos x * cos x.
Proof. pose proof (sin2_cos2 x). unfold Rsqr in *. lra. Qed.

(** The direction to [q], in terms of north and east at [x]. *)
Lemma frame v a q : let x := place v a in
  q = lin 1 (lin (dot (north v a) q) (north v a) (dot (east v a) q) (east v a)) (dot x q) x.
Proof.
  cbv zeta. destruct q as [[q1 q2] q3]. unfold lin, dot, place, north, east. cbn [fst snd].
  pose proof (sc2 (deg v)) as V. pose proof (sc2 (hr a)) as A.
  set (cv := cos (deg v)) in *. set (sv := sin (deg v)) in *. set (ca := cos (hr a)) in *. set (sa := sin (hr a)) in *.
  apply f_equal2; [apply f_equal2|].
  - transitivity (q1 * (sv * sv * ca * ca + sa * sa + cv * cv * ca * ca) + q2 * (sv * sv * ca * sa - sa * ca + cv * cv * sa * ca)); [|ring].
    rewrite V. replace ((1 - cv * cv) * ca * ca + sa * sa + cv * cv * ca * ca) with (ca * ca + sa * sa) by ring. rewrite A. ring.
  - transitivity (q1 * (sv * sv * ca * sa - sa * ca + cv * cv * sa * ca) + q2 * (sv * sv * sa * sa + ca * ca + cv * cv * sa * sa)); [|ring].
    rewrite V. replace ((1 - cv * cv) * sa * sa + ca * ca + cv * cv * sa * sa) with (ca * ca + sa * sa) by ring. rewrite A. ring.
  - transitivity (q3 * (cv * cv + sv * sv) + q1 * (- (sv * ca * cv) + cv * ca * sv) + q2 * (- (sv * sa * cv) + cv * sa * sv)
      + sv * cv * 0 * (1 - ca * ca - sa * sa)); [|ring].
    rewrite V. ring.
Qed.
Lemma towards_frame v a q : towards (place v a) q = lin (dot (north v a) q) (north v a) (dot (east v a) q) (east v a).
Proof.
  pose proof (frame v a q) as F. cbv zeta in F. unfold towards. set (x := place v a) in *.
  set (u := lin (dot (north v a) q) (north v a) (dot (east v a) q) (east v a)) in *. set (k := dot x q) in *. clearbody u x k. rewrite F. destruct u as [[u1 u2] u3], x as [[x1 x2] x3].
  unfold lin. cbn [fst snd]. apply f_equal2; [apply f_equal2|]; ring.
Qed.
Lemma dot_frame v a n1 e1 n2 e2 :
  dot (lin n1 (north v a) e1 (east v a)) (lin n2 (north v a) e2 (east v a)) = n1 * n2 + e1 * e2.
Proof.
  unfold dot, lin, north, east. cbn [fst snd]. pose proof (sc2 (deg v)) as V. pose proof (sc2 (hr a)) as A.
  set (cv := cos (deg v)) in *. set (sv := sin (deg v)) in *. set (ca := cos (hr a)) in *. set (sa := sin (hr a)) in *.
  transitivity (n1 * n2 * (sv * sv * (ca * ca + sa * sa) + cv * cv) + e1 * e2 * (sa * sa + ca * ca)); [ring|].
  rewrite A, V. ring.
Qed.
(** Right of a direction. *)
Lemma cross_frame v a n e : cross (lin n (north v a) e (east v a)) (place v a) = lin (- e) (north v a) n (east v a).
Proof.
  unfold cross, lin, north, east, place. cbn [fst snd]. pose proof (sc2 (deg v)) as V. pose proof (sc2 (hr a)) as A.
  set (cv := cos (deg v)) in *. set (sv := sin (deg v)) in *. set (ca := cos (hr a)) in *. set (sa := sin (hr a)) in *.
  apply f_equal2; [apply f_equal2|].
  - transitivity (- n * sa * (sv * sv + cv * cv) + e * ca * sv); [ring|]. rewrite V. ring.
  - transitivity (n * ca * (sv * sv + cv * cv) + e * sa * sv); [ring|]. rewrite V. ring.
  - transitivity (- e * cv * (sa * sa + ca * ca)); [ring|]. rewrite A. ring.
Qed.

Lemma deg_90 : deg 90 = PI / 2. Proof. unfold deg. field. Qed.
Lemma place_pole : place 90 0 = (0, 0, 1).
Proof. unfold place. rewrite deg_90, cos_PI2, sin_PI2. apply f_equal2; [apply f_equal2|]; ring. Qed.
Lemma place_south : place (-90) 0 = (0, 0, -1).
Proof.
  unfold place. replace (deg (-90)) with (- (PI / 2)) by (unfold deg; field). rewrite cos_neg, sin_neg, cos_PI2, sin_PI2.
  apply f_equal2; [apply f_equal2|]; ring.
Qed.
Lemma base_pole_val p : base_pole p = (0, 0, if Rlt_dec p 0 then -1 else 1).
Proof. unfold base_pole. destruct (Rlt_dec p 0); [apply place_south|apply place_pole]. Qed.

Lemma cos_deg_pos v : -90 < v < 90 -> 0 < cos (deg v).
Proof. intros H. pose proof PI_RGT_0. apply cos_gt_0; unfold deg; nra. Qed.
Lemma cos_deg_nonneg v : -90 <= v <= 90 -> 0 <= cos (deg v).
Proof. intros H. pose proof PI_RGT_0. apply cos_ge_0; unfold deg; nra. Qed.

(** Components of the direction to the destination pole along north and east. *)
Definition un (a v b p : R) : R := cos (deg v) * sin (deg p) - sin (deg v) * cos (deg p) * cos (hr (b - a)).
Definition we (a v b p : R) : R := cos (deg p) * sin (hr (b - a)).

Lemma towards_pole v a : towards (place v a) (place 90 0) = lin (cos (deg v)) (north v a) 0 (east v a).
Proof.
  rewrite towards_frame, dot_north, dot_east. rewrite deg_90, cos_PI2, sin_PI2.
  replace (cos (deg v) * 1 - sin (deg v) * 0 * cos (hr (0 - a))) with (cos (deg v)) by ring.
  now replace (0 * sin (hr (0 - a))) with 0 by ring.
Qed.
Lemma towards_base v a p : towards (place v a) (base_pole p) =
  lin ((if Rlt_dec p 0 then -1 else 1) * cos (deg v)) (north v a) 0 (east v a).
Proof.
  unfold base_pole. destruct (Rlt_dec p 0).
  - rewrite towards_frame, dot_north, dot_east. replace (deg (-90)) with (- (PI / 2)) by (unfold deg; field).
    rewrite cos_neg, sin_neg, cos_PI2, sin_PI2.
    replace (cos (deg v) * - (1) - sin (deg v) * 0 * cos (hr (0 - a))) with (-1 * cos (deg v)) by ring.
    now replace (0 * sin (hr (0 - a))) with 0 by ring.
  - rewrite towards_pole. now replace (1 * cos (deg v)) with (cos (deg v)) by ring.
Qed.
Lemma towards_dest v a p b : towards (place v a) (place p b) = lin (un a v b p) (north v a) (we a v b p) (east v a).
Proof. now rewrite towards_frame, dot_north, dot_east. Qed.
Lemma norm_frame v a n e : norm3 (lin n (north v a) e (east v a)) = sqrt (n ^ 2 + e ^ 2).
Proof. unfold norm3. rewrite dot_frame. apply f_equal. ring. Qed.

(** The size of the direction to the destination pole. *)
Lemma un_we_pos a v b p : off_meridian a b -> -90 < v < 90 -> -90 <= p <= 90 -> 0 < un a v b p ^ 2 + we a v b p ^ 2.
Proof.
  intros O V P. pose proof (pow2_ge_0 (un a v b p)). pose proof (pow2_ge_0 (we a v b p)).
  apply off_meridian_sin in O. pose proof (cos_deg_pos v V). pose proof (cos_deg_nonneg p P).
  destruct (Req_dec (cos (deg p)) 0) as [Z|Z].
  - assert (sin (deg p) * sin (deg p) = 1) by (rewrite sc2, Z; ring).
    assert (E : un a v b p ^ 2 = cos (deg v) * cos (deg v)).
    { unfold un. rewrite Z. transitivity (cos (deg v) * cos (deg v) * (sin (deg p) * sin (deg p))); [ring|]. rewrite H3. ring. }
    assert (0 < cos (deg v) * cos (deg v)) by (apply Rmult_lt_0_compat; lra). lra.
  - assert (we a v b p <> 0) by (unfold we; apply Rmult_integral_contrapositive_currified; assumption).
    assert (0 < we a v b p ^ 2) by (simpl; rewrite Rmult_1_r; apply Rsqr_pos_lt; assumption). lra.
Qed.

Lemma hemi p : p <> 0 -> sgn p = 1%Z /\ 0 < p \/ sgn p = (-1)%Z /\ p < 0.
Proof. intros N. unfold sgn. destruct (Rlt_dec 0 p); [auto|]. destruct (Rlt_dec p 0); [auto|]. lra. Qed.

(** vectors.py:113-142 in general position. *)
Lemma triangle_spec a v b p d : off_meridian a b -> -90 < v < 90 -> -90 <= p <= 90 -> p <> 0 ->
  cos d = cos (hr (b - a)) -> sin d = sin (hr (b - a)) ->
  exists A, triangle_angle d v p = Some A /\ 0 <= A <= 180 /\
    cos (deg A) * sqrt (un a v b p ^ 2 + we a v b p ^ 2) = IZR (sgn p) * un a v b p.
Proof.
  intros O V P NP Cd Sd. pose proof PI_RGT_0 as Hpi.
  pose proof (un_we_pos a v b p O V P) as Y. set (y2 := un a v b p ^ 2 + we a v b p ^ 2) in *.
  unfold triangle_angle. cbv zeta. rewrite (radians_deg v), (radians_deg p), Cd, Sd.
  set (D := hr (b - a)) in *.
  pose proof (vincenty (deg p) (deg v) D) as W. cbv zeta in W.
  set (x := sin (deg v) * sin (deg p) + cos (deg v) * cos (deg p) * cos D) in *.
  assert (EY : (cos (deg p) * sin D) ^ 2 + (cos (deg v) * sin (deg p) - sin (deg v) * cos (deg p) * cos D) ^ 2 = y2).
  { unfold y2, un, we. fold D. ring. }
  rewrite EY in *. set (y := sqrt y2).
  assert (YY : y * y = y2) by (apply sqrt_sqrt; lra).
  assert (YP : 0 < y) by (apply sqrt_lt_R0; exact Y).
  destruct (atan2_unit y x) as [Cc [Sc Bc]]; [lra| |].
  { replace (x ^ 2 + y ^ 2) with (x ^ 2 + y * y) by ring. rewrite YY, W. ring. }
  set (c := atan2 y x) in *.
  set (h := IZR (sgn p)).
  assert (HH : h * h = 1) by (unfold h; destruct (hemi p NP) as [[-> _]|[-> _]]; lra).
  set (dp := h * (h * PI * (1 / 2) - deg p)). set (dv := h * (h * PI * (1 / 2) - deg v)).
  assert (TR : forall z, cos (h * (h * PI * (1 / 2) - z)) = h * sin z /\ sin (h * (h * PI * (1 / 2) - z)) = cos z).
  { intros z. unfold h. destruct (hemi p NP) as [[-> _]|[-> _]].
    - replace (1 * (1 * PI * (1 / 2) - z)) with (PI / 2 - z) by field. rewrite Rtrigo1.cos_shift, Rtrigo1.sin_shift. lra.
    - replace (-1 * (-1 * PI * (1 / 2) - z)) with (PI / 2 - (- z)) by field. rewrite Rtrigo1.cos_shift, Rtrigo1.sin_shift, sin_neg, cos_neg. lra. }
  destruct (TR (deg p)) as [Cp Sp]. destruct (TR (deg v)) as [Cv Sv]. fold dp in Cp, Sp. fold dv in Cv, Sv. clear TR.
  pose proof (cos_deg_pos v V) as CV.
  assert (DEN : sin dv * sin c <> 0) by (rewrite Sv, Sc; apply Rgt_not_eq; apply Rmult_lt_0_compat; lra).
  set (U := un a v b p) in *.
  assert (UB : - y <= U <= y).
  { assert (U * U <= y * y). { rewrite YY. unfold y2. pose proof (pow2_ge_0 (we a v b p)). simpl in H. lra. }
    split; nra. }
  set (C := h * U / y).
  assert (CB : -1 <= C <= 1).
  { assert (- y <= h * U <= y) by (unfold h; destruct (hemi p NP) as [[-> _]|[-> _]]; lra).
    unfold C. split; apply (Rmult_le_reg_r y); try lra; unfold Rdiv; rewrite Rmult_assoc, Rinv_l by lra; lra. }
  assert (LAW : cos dp = cos dv * cos c + sin dv * sin c * C).
  { rewrite Cp, Cv, Sv, Cc, Sc. unfold C. replace (cos (deg v) * y * (h * U / y)) with (h * (cos (deg v) * U)) by (field; lra).
    unfold U, un, x. fold D.
    transitivity (h * (sin (deg p) * (sin (deg v) * sin (deg v) + cos (deg v) * cos (deg v)))); [|ring].
    rewrite (sc2 (deg v)). ring. }
  destruct (half_angle_formula dp dv c C DEN CB LAW) as (hh & H1 & t & H2 & H3 & H4). cbv zeta in H1.
  destruct (Req_EM_T (sin dv * sin c) 0); [contradiction|].
  rewrite H1, H2. exists (degrees (2 * t)). split; [reflexivity|]. rewrite deg_degrees. split.
  { unfold degrees. split.
    - apply Rmult_le_pos; [lra|]. left. apply Rinv_0_lt_compat. lra.
    - apply (Rmult_le_reg_r PI); [lra|]. unfold Rdiv. rewrite Rmult_assoc, Rinv_l by lra. lra. }
  rewrite H4. unfold C. fold U. fold y. field. lra.
Qed.

(** The scalar and array code agree in general position. *)
Lemma pole_angle_general a v b p : off_meridian a b -> -90 < v < 90 -> -90 <= p <= 90 -> p <> 0 ->
  exists A, calc_vec_pole_angle (Some a) (Some v) (Some b) (Some p) = Ok (Some A) /\
    pole_angle_elem (Some a) (Some v) (Some b) (Some p) = Ok (Some A) /\ 0 <= A <= 180 /\
    cos (deg A) * sqrt (un a v b p ^ 2 + we a v b p ^ 2) = IZR (sgn p) * un a v b p.
Proof.
  intros O V P NP. destruct (del_long_spec a b) as [d (E & B & C & S & _)].
  destruct (triangle_spec a v b p d O V P NP C S) as [A (T1 & T2 & T3)].
  exists A. pose proof (off_meridian_branch a b d O S) as M.
  unfold calc_vec_pole_angle, pole_angle_elem. rewrite E. cbn [bind]. rewrite M. cbn [andb general_angle]. rewrite T1. auto.
Qed.

Lemma pole_angle_between a v b p A : off_meridian a b -> -90 < v < 90 -> -90 <= p <= 90 -> p <> 0 -> 0 <= A <= 180 ->
  cos (deg A) * sqrt (un a v b p ^ 2 + we a v b p ^ 2) = IZR (sgn p) * un a v b p ->
  angle_between (towards (place v a) (base_pole p)) (towards (place v a) (place p b)) A.
Proof.
  intros O V P NP B E. split; [exact B|].
  rewrite towards_base, towards_dest, !norm_frame, dot_frame.
  assert (H : (if Rlt_dec p 0 then -1 else 1) = IZR (sgn p)).
  { destruct (hemi p NP) as [[-> L]|[-> L]]; destruct (Rlt_dec p 0); lra. }
  rewrite H. set (h := IZR (sgn p)) in *.
  replace ((h * cos (deg v)) ^ 2 + 0 ^ 2) with ((cos (deg v))²).
  2:{ unfold Rsqr. replace ((h * cos (deg v)) ^ 2 + 0 ^ 2) with (h * h * (cos (deg v) * cos (deg v))) by ring.
      assert (h * h = 1) by (unfold h; destruct (hemi p NP) as [[-> _]|[-> _]]; lra). rewrite H0. ring. }
  rewrite sqrt_Rsqr by (left; apply cos_deg_pos; exact V).
  transitivity (cos (deg v) * (cos (deg A) * sqrt (un a v b p ^ 2 + we a v b p ^ 2))); [ring|]. rewrite E. ring.
Qed.

(** ** adjust_vector *)
Lemma adjust_special v r : special v = Some r -> adjust_vector v = Ok r.
Proof. unfold adjust_vector. now intros ->. Qed.

Lemma special_zero v : special v = None -> is_ns v = false /\ is_zero v = false.
Proof. unfold special. destruct (is_ns v); [discriminate|]. destruct (is_zero v); [discriminate|auto]. Qed.

Lemma vq_range n e : quad_ok (define_vect_quadrants (Some n) (Some e)) = true.
Proof. unfold define_vect_quadrants. destruct (Rle_dec 0 n), (Rle_dec 0 e), (Rlt_dec e 0); reflexivity. Qed.
Lemma pq_range a est : quad_ok (pq_of a est) = true.
Proof. unfold pq_of. destruct (Rlt_dec a 90), est; reflexivity. Qed.

Definition is_east (dl : R) : bool := if Rlt_dec dl 12 then true else false.
Lemma pole_quad_pq data pole a dl : hours_east data pole dl ->
  define_pole_quadrants (Some data) (Some pole) (Some a) = Ok (pq_of a (is_east dl)).
Proof. intros H. rewrite (pole_quad_spec _ _ _ _ H). unfold pq_of, is_east. now destruct (Rlt_dec a 90), (Rlt_dec dl 12). Qed.

Lemma feq_refl_iff x y : feq (Some x) (Some y) = true <-> x = y.
Proof. cbn. destruct (Req_EM_T x y); split; congruence. Qed.

Definition consistent (v : vin) : Prop :=
  (v_q v = 0%Z \/ v_q v = define_vect_quadrants (v_n v) (v_e v)) /\
  (p_q v = 0%Z \/ define_pole_quadrants (v_lt v) (p_lt v) (p_ang v) = Ok (p_q v)).

Lemma adjust_general lt lat n e z vq plt plat a pq dl :
  consistent (mkVin (Some lt) lat (Some n) (Some e) z vq (Some plt) plat (Some a) pq) ->
  hours_east lt plt dl -> 0 < a < 180 -> ~ (n = 0 /\ e = 0) ->
  adjust_vector (mkVin (Some lt) lat (Some n) (Some e) z vq (Some plt) plat (Some a) pq) =
  Ok (Some (fst (rotated (pm (is_east dl)) a n e)), Some (snd (rotated (pm (is_east dl)) a n e)), z).
Proof.
  intros [CV CP] HE A NZ. cbn [v_q v_n v_e p_q v_lt p_lt p_ang] in *.
  unfold adjust_vector, special, is_ns, is_zero. cbn [v_n v_e v_z v_q p_ang p_q v_lt p_lt].
  assert (N0 : feq (Some a) (Some 0) = false) by (cbn; destruct (Req_EM_T a 0); [lra|reflexivity]).
  assert (N1 : feq (Some a) (Some 180) = false) by (cbn; destruct (Req_EM_T a 180); [lra|reflexivity]).
  assert (N2 : feq (Some n) (Some 0) && feq (Some e) (Some 0) = false).
  { cbn. destruct (Req_EM_T n 0), (Req_EM_T e 0); try reflexivity. exfalso. tauto. }
  rewrite N0, N1, N2. cbn [orb].
  assert (VQ : (if (vq =? 0)%Z then define_vect_quadrants (Some n) (Some e) else vq) = vq_of n e).
  { destruct (vq =? 0)%Z eqn:Q; [reflexivity|]. apply Z.eqb_neq in Q. destruct CV as [CV|CV]; [contradiction|exact CV]. }
  assert (PQ : (if (pq =? 0)%Z then define_pole_quadrants (Some lt) (Some plt) (Some a) else Ok pq) = Ok (pq_of a (is_east dl))).
  { pose proof (pole_quad_pq lt plt a dl HE) as K. destruct (pq =? 0)%Z eqn:Q; [exact K|]. apply Z.eqb_neq in Q.
    destruct CP as [CP|CP]; [contradiction|]. now rewrite <- CP. }
  rewrite PQ. cbn [bind]. rewrite VQ.
  destruct (rotation n e a (is_east dl) NZ ltac:(lra)) as (d & D1 & D2 & D3 & D4). cbv zeta in D1, D4.
  unfold calc_dest_polar_angle, calc_dest_vec_sign. rewrite pq_range. unfold vq_of at 1. rewrite vq_range. cbn [negb].
  rewrite D1. cbn [bind]. unfold vq_of at 1. rewrite vq_range. cbn [negb bind fst snd]. rewrite D4. reflexivity.
Qed.

(** ** The whole adjustment *)
Lemma rotated_towards s A n e u w y : 0 < y -> y * y = u ^ 2 + w ^ 2 -> (s = 1 /\ 0 <= w \/ s = -1 /\ w <= 0) ->
  0 <= A <= 180 -> cos (deg A) * y = u ->
  fst (rotated s A n e) * y = n * u + e * w /\ snd (rotated s A n e) * y = e * u - n * w.
Proof.
  intros Y YY S A0 C. destruct (sin_sign_deg A) as [SP _]. specialize (SP A0).
  assert (SN : sin (deg A) * y = Rabs w).
  { rewrite <- (Rabs_pos_eq (sin (deg A) * y)) by (apply Rmult_le_pos; lra). apply Rsqr_eq_abs_0. unfold Rsqr.
    transitivity (sin (deg A) * sin (deg A) * (y * y)); [ring|]. rewrite sc2.
    transitivity (y * y - (cos (deg A) * y) * (cos (deg A) * y)); [ring|]. rewrite C, YY. ring. }
  assert (SW : s * (sin (deg A) * y) = w).
  { rewrite SN. destruct S as [[-> W]|[-> W]]; [rewrite Rabs_pos_eq by exact W|rewrite Rabs_left1 by exact W]; lra. }
  unfold rotated. cbn [fst snd]. split.
  - transitivity (n * (cos (deg A) * y) + e * (s * (sin (deg A) * y))); [ring|]. now rewrite C, SW.
  - transitivity (e * (cos (deg A) * y) - n * (s * (sin (deg A) * y))); [ring|]. now rewrite C, SW.
Qed.

Lemma pole_east a v b p dl : hours_east a b dl -> -90 <= p <= 90 ->
  pm (is_east dl) = 1 /\ 0 <= we a v b p \/ pm (is_east dl) = -1 /\ we a v b p <= 0.
Proof.
  intros H P. destruct (hours_east_sin a b dl H) as [S1 S2]. pose proof (cos_deg_nonneg p P). unfold is_east, we, pm.
  destruct (Rlt_dec dl 12) as [L|L]; [left|right]; split; try reflexivity.
  - apply Rmult_le_pos; [assumption|]. now apply S1.
  - assert (sin (hr (b - a)) <= 0) by (apply S2; lra). nra.
Qed.

Lemma special_aligned lt lat n e z vq plt plat pq : ~ (plat <= lat) ->
  adjust_vector (mkVin lt (Some lat) n e z vq plt (Some plat) (Some 0) pq) = Ok (n, e, z).
Proof.
  intros H. apply adjust_special. unfold special, is_ns. cbn [p_ang v_lat p_lat v_n v_e v_z].
  assert (feq (Some 0) (Some 0) = true) as -> by now apply feq_refl_iff. cbn [orb andb].
  rewrite fle_false by lra. now destruct n, e.
Qed.
Lemma special_opposed lt lat n e z vq plt plat pq :
  adjust_vector (mkVin lt lat n e z vq plt plat (Some 180) pq) = Ok (n, e, z).
Proof.
  apply adjust_special. unfold special, is_ns. cbn [p_ang v_lat p_lat v_n v_e v_z].
  assert (feq (Some 180) (Some 180) = true) as -> by now apply feq_refl_iff. rewrite orb_true_r.
  assert (feq (Some 180) (Some 0) = false) as -> by (cbn; destruct (Req_EM_T 180 0); [lra|reflexivity]). cbn [andb]. now destruct n, e.
Qed.
Lemma special_at lt lat n e z vq plt plat pq : plat <= lat ->
  adjust_vector (mkVin lt (Some lat) (Some n) (Some e) z vq plt (Some plat) (Some 0) pq) = Ok (Some (- n), Some (- e), z).
Proof.
  intros H. apply adjust_special. unfold special, is_ns. cbn [p_ang v_lat p_lat v_n v_e v_z].
  assert (feq (Some 0) (Some 0) = true) as -> by now apply feq_refl_iff. cbn [orb andb].
  rewrite fle_true by lra. cbn. apply f_equal. replace (n * -1) with (- n) by ring. replace (e * -1) with (- e) by ring. reflexivity.
Qed.
Lemma adjust_zero lt lat z vq plt plat a pq : a <> 0 -> a <> 180 ->
  adjust_vector (mkVin lt lat (Some 0) (Some 0) z vq plt plat (Some a) pq) = Ok (Some 0, Some 0, Some 0).
Proof.
  intros A B. apply adjust_special. unfold special, is_ns, is_zero. cbn [p_ang v_lat p_lat v_n v_e v_z].
  assert (feq (Some a) (Some 0) = false) as -> by (cbn; destruct (Req_EM_T a 0); [lra|reflexivity]).
  assert (feq (Some a) (Some 180) = false) as -> by (cbn; destruct (Req_EM_T a 180); [lra|reflexivity]).
  assert (feq (Some 0) (Some 0) = true) as -> by now apply feq_refl_iff. reflexivity.
Qed.

(** Destination pole north of the equator, general position. *)
Lemma to_boundary_general a v n e z b p : off_meridian a b -> -90 < v < 90 -> 0 < p <= 90 ->
  exists A pq n' e' z', calc_vec_pole_angle (Some a) (Some v) (Some b) (Some p) = Ok (Some A) /\
    define_pole_quadrants (Some a) (Some b) (Some A) = Ok pq /\
    adjust_vector (mkVin (Some a) (Some v) (Some n) (Some e) (Some z) (vq_of n e) (Some b) (Some p) (Some A) pq)
      = Ok (Some n', Some e', Some z') /\
    n' * sqrt (un a v b p ^ 2 + we a v b p ^ 2) = n * un a v b p + e * we a v b p /\
    e' * sqrt (un a v b p ^ 2 + we a v b p ^ 2) = e * un a v b p - n * we a v b p /\
    (z' = z \/ n = 0 /\ e = 0).
Proof.
  intros O V P. assert (NP : p <> 0) by lra. assert (P' : -90 <= p <= 90) by lra.
  destruct (pole_angle_general a v b p O V P' NP) as [A (E1 & _ & A1 & A2)].
  assert (SG : sgn p = 1%Z) by (destruct (hemi p NP) as [[H _]|[_ H]]; [exact H|lra]). rewrite SG in A2.
  pose proof (un_we_pos a v b p O V P') as Y. set (y := sqrt _) in *.
  assert (YP : 0 < y) by (apply sqrt_lt_R0; exact Y).
  assert (YY : y * y = un a v b p ^ 2 + we a v b p ^ 2) by (apply sqrt_sqrt; lra).
  set (U := un a v b p) in *. set (W := we a v b p) in *.
  destruct (hours_east_exists a b) as [dl HE].
  assert (C : cos (deg A) * y = U) by lra.
  exists A, (pq_of A (is_east dl)).
  destruct (Req_dec A 0) as [-> |NA0]; [|destruct (Req_dec A 180) as [-> |NA1]].
  - (* the destination pole is the base pole *)
    assert (CU : U = y) by (replace (deg 0) with 0 in C by (unfold deg; field); rewrite cos_0 in C; lra).
    assert (W0 : W = 0) by (assert (W ^ 2 = 0) by (rewrite CU in YY; simpl in *; lra); apply Rsqr_0_uniq; unfold Rsqr; simpl in H; lra).
    assert (PP : p = 90).
    { unfold W, we in W0. apply Rmult_integral in W0. destruct W0 as [W0|W0]; [|now apply off_meridian_sin in O].
      destruct (Req_dec p 90) as [E|E]; [exact E|]. assert (0 < cos (deg p)) by (apply cos_deg_pos; lra). lra. }
    exists n, e, z. split; [exact E1|]. split; [now apply pole_quad_pq|]. split; [apply special_aligned; lra|].
    rewrite W0, CU. split; [lra|]. split; [lra|now left].
  - (* impossible: the destination pole would be due south *)
    exfalso. rewrite deg_180, cos_PI in C.
    assert (CU : U = - y) by lra.
    assert (W0 : W = 0) by (assert (W ^ 2 = 0) by (rewrite CU in YY; simpl in *; lra); apply Rsqr_0_uniq; unfold Rsqr; simpl in H; lra).
    unfold W, we in W0. apply Rmult_integral in W0. destruct W0 as [W0|W0]; [|now apply off_meridian_sin in O].
    assert (PP : p = 90).
    { destruct (Req_dec p 90) as [E|E]; [exact E|]. assert (0 < cos (deg p)) by (apply cos_deg_pos; lra). lra. }
    subst p. unfold U, un in CU. rewrite W0, deg_90, sin_PI2 in CU. pose proof (cos_deg_pos v V). lra.
  - destruct (Req_dec n 0) as [N0|N0]; [destruct (Req_dec e 0) as [N1|N1]|].
    + subst. exists 0, 0, 0. split; [exact E1|]. split; [now apply pole_quad_pq|]. split; [now apply adjust_zero|].
      split; [lra|]. split; [lra|right; auto].
    + destruct (rotated_towards (pm (is_east dl)) A n e U W y YP YY (pole_east a v b p dl HE P') A1 C) as [R1 R2].
      do 3 eexists. split; [exact E1|]. split; [now apply pole_quad_pq|]. split.
      { apply adjust_general with (dl := dl); [|exact HE|lra|tauto]. split; right; [reflexivity|]. now apply pole_quad_pq. }
      split; [exact R1|]. split; [exact R2|now left].
    + destruct (rotated_towards (pm (is_east dl)) A n e U W y YP YY (pole_east a v b p dl HE P') A1 C) as [R1 R2].
      do 3 eexists. split; [exact E1|]. split; [now apply pole_quad_pq|]. split.
      { apply adjust_general with (dl := dl); [|exact HE|lra|tauto]. split; right; [reflexivity|]. now apply pole_quad_pq. }
      split; [exact R1|]. split; [exact R2|now left].
Qed.

(** Position of the pole from the boundary record. *)
Lemma un_shift a v b c p : shifted 24 c b -> un a v b p = un a v c p /\ we a v b p = we a v c p.
Proof.
  intros [k S]. unfold un, we.
  assert (T : shifted (2 * PI) (hr (c - a)) (hr (b - a))) by (exists k; unfold hr; rewrite S; field).
  destruct (shifted_trig _ _ T) as [C D]. now rewrite C, D.
Qed.
Lemma shifted_24_12 x y : shifted 24 x y -> shifted 12 x y.
Proof. intros [k ->]. exists (2 * k)%Z. rewrite mult_IZR. lra. Qed.
Lemma shifted_sub P x y a : shifted P x y -> shifted P (x - a) (y - a).
Proof. intros [k ->]. exists k. lra. Qed.
Lemma off_shift a b c : shifted 24 c b -> off_meridian a c -> off_meridian a b.
Proof.
  intros S O H. apply O. eapply shifted_trans; [|exact H]. apply shifted_sub. now apply shifted_24_12.
Qed.

Lemma pole_loc_spec phi r : exists b, get_pole_loc (Some phi) (Some r) = Ok (Some b, Some (90 - r)) /\
  0 <= b < 24 /\ shifted 24 (phi / 15) b.
Proof.
  destruct (deg2hr_spec phi) as [b [E [B S]]]. exists b. unfold get_pole_loc. rewrite E. cbn. auto.
Qed.

Lemma seen_along_intro a v b p n e n' e' :
  n' * sqrt (un a v b p ^ 2 + we a v b p ^ 2) = n * un a v b p + e * we a v b p ->
  e' * sqrt (un a v b p ^ 2 + we a v b p ^ 2) = e * un a v b p - n * we a v b p ->
  seen_along (place v a) (towards (place v a) (place p b)) (horizontal v a n e) n' e'.
Proof.
  intros H1 H2. unfold seen_along, horizontal. rewrite towards_dest, norm_frame, dot_frame, cross_frame, dot_frame.
  split; [exact H1|]. rewrite H2. ring.
Qed.

Lemma to_boundary_off lt v n e z phi r : off_meridian lt (phi / 15) -> -90 < v < 90 -> 0 <= r < 90 ->
  exists n' e' z', vector_to_boundary (Some lt) (Some v) (Some n) (Some e) (Some z) (Some phi) (Some r) = Ok (Some n', Some e', Some z') /\
    seen_along (place v lt) (towards (place v lt) (place (90 - r) (phi / 15))) (horizontal v lt n e) n' e' /\
    (z' = z \/ n = 0 /\ e = 0).
Proof.
  intros O V Hr. destruct (pole_loc_spec phi r) as [b (E & B & S)].
  pose proof (off_shift lt b (phi / 15) S O) as O'.
  destruct (to_boundary_general lt v n e z b (90 - r) O' V ltac:(lra)) as (A & pq & n' & e' & z' & G1 & G2 & G3 & G4 & G5 & G6).
  exists n', e', z'. split.
  - unfold vector_to_boundary. rewrite E. cbn [bind fst snd]. rewrite G1. cbn [bind]. rewrite G2. cbn [bind]. exact G3.
  - split; [|exact G6]. destruct (un_shift lt v b (phi / 15) (90 - r) S) as [U W]. rewrite U, W in *. now apply seen_along_intro.
Qed.

(** Meridians. *)
Lemma meridian_del a b d (m : R) : (m = 0 \/ m = 12) -> shifted 24 (b - a) m -> - PI <= d < PI -> shifted (2 * PI) (hr (b - a)) d ->
  d = if Req_EM_T m 0 then 0 else - PI.
Proof.
  intros M [k K] B S. pose proof PI_RGT_0.
  assert (Q : shifted (2 * PI) (hr (b - a)) (if Req_EM_T m 0 then 0 else - PI)).
  { destruct (Req_EM_T m 0) as [Z|Z].
    - exists k. unfold hr. replace (b - a) with (- (IZR k * 24)) by lra. field.
    - assert (m = 12) by (destruct M; [contradiction|assumption]). exists (k - 1)%Z. rewrite minus_IZR. unfold hr.
      replace (b - a) with (12 - IZR k * 24) by lra. field. }
  apply (shifted_unique (2 * PI) (hr (b - a)) _ _ ltac:(lra) S Q (- PI)); [lra|]. destruct (Req_EM_T m 0); lra.
Qed.
Lemma aligned_angle a v b p m : (m = 0 \/ m = 12) -> shifted 24 (b - a) m ->
  calc_vec_pole_angle (Some a) (Some v) (Some b) (Some p) = Ok (Some (if Rlt_dec (Rabs p) (Rabs v) then 180 else 0)) /\
  pole_angle_elem (Some a) (Some v) (Some b) (Some p) = Ok (Some (if Rlt_dec (Rabs p) (Rabs v) then 180 else 0)).
Proof.
  intros M K. destruct (del_long_spec a b) as [d (E & B & C & S & T)].
  pose proof (meridian_del a b d m M K B T) as D.
  assert (OM : on_meridian (Some d) = true) by (apply on_meridian_iff; rewrite D; destruct (Req_EM_T m 0); auto).
  unfold calc_vec_pole_angle, pole_angle_elem. rewrite E. cbn [bind]. rewrite OM. cbn [andb abs_lt abs_ge].
  destruct (Rlt_dec (Rabs p) (Rabs v)); [auto|]. destruct (Rle_dec (Rabs v) (Rabs p)); [auto|lra].
Qed.
Lemma un_same a v b p : same_meridian a b -> un a v b p = sin (deg (p - v)) /\ we a v b p = 0.
Proof.
  intros K. assert (T : shifted (2 * PI) (hr (b - a)) 0).
  { destruct K as [k K]. exists k. unfold hr. replace (b - a) with (- (IZR k * 24)) by lra. field. }
  destruct (shifted_trig _ _ T) as [C S]. unfold un, we. rewrite <- C, <- S, cos_0, sin_0, deg_lin, sin_minus. lra.
Qed.
Lemma un_opposite a v b p : opposite_meridian a b -> un a v b p = sin (deg (p + v)) /\ we a v b p = 0.
Proof.
  intros K. assert (T : shifted (2 * PI) (hr (b - a)) PI).
  { destruct K as [k K]. exists k. unfold hr. replace (b - a) with (12 - IZR k * 24) by lra. field. }
  destruct (shifted_trig _ _ T) as [C S]. unfold un, we. rewrite <- C, <- S, cos_PI, sin_PI, deg_add, sin_plus. lra.
Qed.
Lemma sin_deg_pos x : 0 < x < 180 -> 0 < sin (deg x).
Proof. intros H. pose proof PI_RGT_0. apply sin_gt_0; unfold deg; nra. Qed.
Lemma sqrt_sq0 x : 0 < x -> sqrt (x ^ 2 + 0 ^ 2) = x.
Proof. intros H. replace (x ^ 2 + 0 ^ 2) with (x * x) by ring. apply sqrt_square. lra. Qed.
Lemma sqrt_sq0_neg x : x < 0 -> sqrt (x ^ 2 + 0 ^ 2) = - x.
Proof. intros H. replace (x ^ 2 + 0 ^ 2) with ((- x) * (- x)) by ring. apply sqrt_square. lra. Qed.

(** ** Arrays *)
Lemma Forall2_map {A B} (P : A -> B -> Prop) (f : A -> B) l : (forall x, In x l -> P x (f x)) -> Forall2 P l (map f l).
Proof. induction l as [|x l IH]; intros H; constructor; [apply H; now left|apply IH; intros; apply H; now right]. Qed.

(** The quadrants of one vector after [requad]. *)
Definition requad1 (rv rp : bool) (v : vin) : vin :=
  with_quads v (if rv then define_vect_quadrants (v_n v) (v_e v) else v_q v)
    (match (if rp then define_pole_quadrants (v_lt v) (p_lt v) (p_ang v) else Ok (p_q v)) with Ok q => q | Err _ => 0%Z end).

Lemma pole_quad_total a b g : exists q, define_pole_quadrants a b g = Ok q.
Proof.
  unfold define_pole_quadrants. destruct a as [x|], b as [y|].
  - destruct (del_lt_spec x y) as [d [E _]]. rewrite E. cbn [bind]. eexists. reflexivity.
  - unfold del_lt. cbn [fmap2 bind]. eexists. reflexivity.
  - unfold del_lt. cbn [fmap2 bind]. eexists. reflexivity.
  - unfold del_lt. cbn [fmap2 bind]. eexists. reflexivity.
Qed.
Lemma mapE_all {A B} (f : A -> res B) (g : A -> B) l : (forall x, f x = Ok (g x)) -> mapE f l = Ok (map g l).
Proof. intros H. induction l as [|x l IH]; cbn; [reflexivity|]. now rewrite H, IH. Qed.
Lemma requad_map vs : exists rv rp, requad vs = Ok (map (requad1 rv rp) vs) /\
  rv = existsb (fun v => v_q v =? 0)%Z (filter is_norm vs) /\ rp = existsb (fun v => p_q v =? 0)%Z (filter is_norm vs).
Proof.
  eexists _, _. split; [|split; reflexivity]. unfold requad. apply mapE_all. intros v. unfold requad1.
  destruct (existsb (fun v0 => p_q v0 =? 0)%Z (filter is_norm vs)); [|reflexivity].
  destruct (pole_quad_total (v_lt v) (p_lt v) (p_ang v)) as [q E]. rewrite E. reflexivity.
Qed.
Lemma special_quads v a b : special (with_quads v a b) = special v.
Proof. reflexivity. Qed.
Lemma special_norm v : special v = None <-> is_norm v = true.
Proof. unfold special, is_norm. destruct (is_ns v), (is_zero v); cbn; split; congruence. Qed.

(** All the values the general case needs are defined. *)
Definition defined (v : vin) : Prop :=
  v_lt v <> None /\ p_lt v <> None /\ v_n v <> None /\ v_e v <> None /\ p_ang v <> None.

Lemma quad_zero_or v q : define_pole_quadrants (v_lt v) (p_lt v) (p_ang v) = Ok q -> defined v -> quad_ok q = true.
Proof.
  intros E (H1 & H2 & _ & _ & H5). destruct v as [lt lat n e z vq plt plat ang pq]. cbn [v_lt p_lt p_ang] in *.
  destruct lt as [lt|]; [|congruence]. destruct plt as [plt|]; [|congruence]. destruct ang as [ang|]; [|congruence].
  destruct (hours_east_exists lt plt) as [dl HE]. rewrite (pole_quad_pq _ _ _ _ HE) in E. injection E as <-. apply pq_range.
Qed.
Lemma vquad_ok v : defined v -> quad_ok (define_vect_quadrants (v_n v) (v_e v)) = true.
Proof.
  intros (_ & _ & H3 & H4 & _). destruct v as [lt lat n e z vq plt plat ang pq]. cbn [v_n v_e] in *.
  destruct n as [n|]; [|congruence]. destruct e as [e|]; [|congruence]. apply vq_range.
Qed.

Lemma requad1_quads rv rp v : consistent v -> (rv = false -> v_q v <> 0%Z) -> (rp = false -> p_q v <> 0%Z) ->
  v_q (requad1 rv rp v) = define_vect_quadrants (v_n v) (v_e v) /\
  define_pole_quadrants (v_lt v) (p_lt v) (p_ang v) = Ok (p_q (requad1 rv rp v)).
Proof.
  intros [CV CP] HV HP. cbn [requad1 with_quads v_q p_q]. split.
  - destruct rv; [reflexivity|]. destruct CV as [CV|CV]; [now specialize (HV eq_refl)|exact CV].
  - destruct rp.
    + destruct (pole_quad_total (v_lt v) (p_lt v) (p_ang v)) as [q E]. now rewrite E.
    + destruct CP as [CP|CP]; [now specialize (HP eq_refl)|exact CP].
Qed.

Lemma dest_zero pq vq b a : pq = 0%Z \/ vq = 0%Z -> dest_angle pq vq b a = None.
Proof.
  intros H. unfold dest_angle. destruct b; [|reflexivity]. destruct a; [|reflexivity]. unfold quads.
  assert (Q : forall o v, (1 <= o)%Z -> (1 <= v)%Z -> ((pq =? o) && (vq =? v))%Z = false).
  { intros o v Ho Hv. destruct H as [-> | ->].
    - replace (0 =? o)%Z with false by (symmetry; apply Z.eqb_neq; lia). reflexivity.
    - replace (0 =? v)%Z with false by (symmetry; apply Z.eqb_neq; lia). apply andb_false_r. }
  rewrite !Q by lia. reflexivity.
Qed.
Lemma dest_none pq vq b a : b = None \/ a = None -> dest_angle pq vq b a = None.
Proof. intros [-> | ->]; unfold dest_angle; [reflexivity|now destruct b]. Qed.

Lemma elem_undefined v : ~ defined v -> v_q v = define_vect_quadrants (v_n v) (v_e v) ->
  define_pole_quadrants (v_lt v) (p_lt v) (p_ang v) = Ok (p_q v) -> elem_normal v = (None, None, None).
Proof.
  intros N VQ PQ. unfold elem_normal.
  assert (D : dest_angle (p_q v) (v_q v) (base_naz (v_n v) (v_e v)) (p_ang v) = None).
  { destruct v as [lt lat n e z vq plt plat ang pq]. cbn [v_n v_e v_lt p_lt p_ang v_q p_q] in *. unfold defined in N. cbn in N.
    destruct n as [n|]; [|apply dest_none; now left]. destruct e as [e|]; [|apply dest_none; now left].
    destruct ang as [ang|]; [|apply dest_none; now right].
    apply dest_zero. left. unfold define_pole_quadrants, del_lt in PQ.
    destruct lt as [lt|]; destruct plt as [plt|]; cbn [fmap2 bind] in PQ; try (injection PQ as <-; reflexivity).
    exfalso. apply N. repeat split; discriminate. }
  rewrite D. unfold components. cbn [acute fmap option_map isnan]. rewrite orb_true_r.
  destruct (vmag (v_n v) (v_e v)); reflexivity.
Qed.

Lemma elem_defined v : special v = None -> defined v -> consistent v ->
  v_q v = define_vect_quadrants (v_n v) (v_e v) -> define_pole_quadrants (v_lt v) (p_lt v) (p_ang v) = Ok (p_q v) ->
  adjust_vector v = Ok (elem_normal v).
Proof.
  intros SP D C VQ PQ. unfold adjust_vector. rewrite SP.
  pose proof (vquad_ok v D) as VO. pose proof (quad_zero_or v _ PQ D) as PO. rewrite <- VQ in *.
  assert ((v_q v =? 0)%Z = false) as -> by (unfold quad_ok in VO; apply Z.eqb_neq; intros Z; rewrite Z in VO; discriminate).
  assert ((p_q v =? 0)%Z = false) as -> by (unfold quad_ok in PO; apply Z.eqb_neq; intros Z; rewrite Z in PO; discriminate).
  cbn [bind]. unfold calc_dest_polar_angle, calc_dest_vec_sign. rewrite PO, VO. cbn [negb bind fst snd].
  unfold elem_normal. destruct D as (_ & _ & H3 & H4 & H5).
  destruct (special_zero v SP) as [_ ZZ].
  assert (M : exists m b, vmag (v_n v) (v_e v) = Some m /\ base_naz (v_n v) (v_e v) = Some b).
  { destruct v as [lt lat n e z vq plt plat ang pq]. cbn [v_n v_e] in *. destruct n as [n|]; [|congruence]. destruct e as [e|]; [|congruence].
    destruct (azimuth n e) as (m & b & E1 & E2 & _).
    { intros [-> ->]. unfold is_zero in ZZ. cbn [v_n v_e] in ZZ. assert (feq (Some 0) (Some 0) = true) by now apply feq_refl_iff.
      rewrite H in ZZ. discriminate. }
    eauto. }
  destruct M as (m & b & M1 & M2). rewrite M1, M2. destruct (p_ang v) as [g|] eqn:EG; [|congruence].
  destruct (combos_val (p_q v) (v_q v) b g PO VO) as [d ED]. rewrite ED. cbn [isnan orb]. reflexivity.
Qed.

Lemma adjust_requad v w : special v = None -> defined v -> consistent v -> consistent w ->
  w = with_quads v (v_q w) (p_q w) -> adjust_vector w = adjust_vector v.
Proof.
  intros SP D [CV CP] [WV WP] E.
  pose proof (vquad_ok v D) as VO. destruct (pole_quad_total (v_lt v) (p_lt v) (p_ang v)) as [q EQ].
  pose proof (quad_zero_or v q EQ D) as PO.
  assert (F : v_n w = v_n v /\ v_e w = v_e v /\ v_lt w = v_lt v /\ p_lt w = p_lt v /\ p_ang w = p_ang v /\ v_z w = v_z v /\ special w = special v).
  { rewrite E. repeat split. }
  destruct F as (F1 & F2 & F3 & F4 & F5 & F6 & F7). unfold adjust_vector. rewrite F7, SP, F1, F2, F3, F4, F5, F6.
  assert (V1 : forall u, u = 0%Z \/ u = define_vect_quadrants (v_n v) (v_e v) ->
            (if (u =? 0)%Z then define_vect_quadrants (v_n v) (v_e v) else u) = define_vect_quadrants (v_n v) (v_e v)).
  { intros u [-> | ->]; [reflexivity|]. destruct (_ =? 0)%Z; reflexivity. }
  assert (P1 : forall u, u = 0%Z \/ define_pole_quadrants (v_lt v) (p_lt v) (p_ang v) = Ok u ->
            (if (u =? 0)%Z then define_pole_quadrants (v_lt v) (p_lt v) (p_ang v) else Ok u) = Ok q).
  { intros u [-> | U]; [exact EQ|]. rewrite U in EQ. injection EQ as <-. destruct (u =? 0)%Z; [exact U|reflexivity]. }
  rewrite F1, F2 in WV. rewrite F3, F4, F5 in WP.
  rewrite (V1 _ CV), (V1 _ WV), (P1 _ CP), (P1 _ WP). reflexivity.
Qed.

Lemma adjust_vectors_spec vs :
  (forall v, In v vs -> consistent v) ->
  (forall v, In v vs -> special v <> None) \/ (exists v, In v vs /\ special v = None /\ defined v) ->
  exists rs, adjust_vectors vs = Ok rs /\
    Forall2 (fun v r => ((special v <> None \/ defined v) -> adjust_vector v = Ok r) /\
                        (special v = None -> ~ defined v -> r = (None, None, None))) vs rs.
Proof.
  intros CS H. unfold adjust_vectors. destruct (existsb is_norm vs) eqn:EX.
  2:{ eexists. split; [reflexivity|]. apply Forall2_map. intros v Hv.
      assert (NN : is_norm v = false).
      { destruct (is_norm v) eqn:Q; [|reflexivity]. assert (existsb is_norm vs = true) by (apply existsb_exists; eauto). congruence. }
      destruct (special v) as [r|] eqn:SP; [|apply special_norm in SP; congruence].
      split; [intros _; now apply adjust_special|discriminate]. }
  assert (K : exists v, In v vs /\ special v = None /\ defined v).
  { destruct H as [H|H]; [|exact H]. apply existsb_exists in EX. destruct EX as [v [Hv N]]. apply special_norm in N. now apply H in Hv. }
  clear H. destruct (requad_map vs) as (rv & rp & E & RV & RP). rewrite E. cbn [bind].
  assert (Q : forall v, In v vs -> special v = None -> v_q (requad1 rv rp v) = define_vect_quadrants (v_n v) (v_e v) /\
     define_pole_quadrants (v_lt v) (p_lt v) (p_ang v) = Ok (p_q (requad1 rv rp v))).
  { intros v Hv SP. apply requad1_quads; [now apply CS| |]; intros -> Z; apply special_norm in SP.
    - assert (T : existsb (fun v => v_q v =? 0)%Z (filter is_norm vs) = true).
      { apply existsb_exists. exists v. split; [now apply filter_In|]. now rewrite Z. }
      congruence.
    - assert (T : existsb (fun v => p_q v =? 0)%Z (filter is_norm vs) = true).
      { apply existsb_exists. exists v. split; [now apply filter_In|]. now rewrite Z. }
      congruence. }
  destruct K as (w & Hw & SPw & Dw). destruct (Q w Hw SPw) as [Q1 Q2].
  assert (O1 : existsb (fun v => quad_ok (p_q v)) (map (requad1 rv rp) vs) = true).
  { apply existsb_exists. exists (requad1 rv rp w). split; [now apply in_map|]. now apply (quad_zero_or w). }
  assert (O2 : existsb (fun v => quad_ok (v_q v)) (map (requad1 rv rp) vs) = true).
  { apply existsb_exists. exists (requad1 rv rp w). split; [now apply in_map|]. rewrite Q1. now apply vquad_ok. }
  rewrite O1, O2. cbn [negb]. rewrite map_map. eexists. split; [reflexivity|]. apply Forall2_map. intros v Hv.
  rewrite (special_quads v _ _ : special (requad1 rv rp v) = special v). destruct (special v) as [r|] eqn:SP.
  - split; [intros _; now apply adjust_special|discriminate].
  - destruct (Q v Hv SP) as [V1 V2]. set (u := requad1 rv rp v) in *.
    assert (SU : special u = None) by exact SP.
    assert (CU : consistent u) by (split; right; assumption).
    split.
    + intros [F|D]; [congruence|].
      rewrite <- (adjust_requad v u SP D (CS v Hv) CU eq_refl). apply elem_defined; assumption.
    + intros _ D. apply elem_undefined; assumption.
Qed.
