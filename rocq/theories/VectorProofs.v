(** Proofs about vectors.py. *)
From Coq Require Import Reals ZArith List Bool Lia Lra.
From Verif Require Import PyBase RangeModel RangeSpec RangeProofs CoordModel CoordSpec CoordProofs DualCoordModel
  VectorModel VectorSpec.
Import ListNotations.
Open Scope R_scope.

(** ** Loops of the quadrant functions *)
Lemma large_loop_spec fuel d : 0 <= d -> d - 24 < INR fuel * 24 ->
  exists w, large_loop fuel d = Ok w /\ 0 <= w < 24 /\ shifted 24 d w.
Proof.
  revert d. induction fuel as [|f IH]; intros d Hd Hf.
  - cbn in Hf. exists d. cbn. rewrite Rabs_pos_eq by exact Hd. destruct (Rle_dec 24 d); [lra|].
    split; [reflexivity|]. split; [lra|apply shifted_refl].
  - cbn [large_loop]. rewrite Rabs_pos_eq by exact Hd. destruct (Rle_dec 24 d) as [L|L].
    + rewrite S_INR in Hf. unfold sgn. destruct (Rlt_dec 0 d); [|lra].
      destruct (IH (d - 24 * 1)) as [w [A [B C]]]; [lra|lra|].
      exists w. split; [exact A|]. split; [exact B|]. eapply shifted_trans; [|exact C]. exists (-1)%Z. lra.
    + exists d. split; [reflexivity|]. split; [lra|apply shifted_refl].
Qed.

Lemma del_lt_spec data pole : exists d, del_lt (Some data) (Some pole) = Ok (Some d) /\ hours_east data pole d.
Proof.
  unfold del_lt. cbn [fmap2].
  destruct (add_loop_spec (passes_for 24 (pole - data)) 0 24 (pole - data)) as [w [A [B [C [D E]]]]]; [lra| |].
  { replace (pole - data) with (pole - data - 0) at 2 by lra. apply passes_add. lra. }
  rewrite A. cbn [bind].
  destruct (large_loop_spec (passes_for 24 w) w B) as [u [F [G H]]].
  { pose proof (passes_enough 24 w ltac:(lra) B). lra. }
  rewrite F. cbn [bind]. exists u. split; [reflexivity|]. split; [eapply shifted_trans; eassumption|lra].
Qed.

Lemma hours_east_unique a b d d' : hours_east a b d -> hours_east a b d' -> d = d'.
Proof. intros [S1 I1] [S2 I2]. exact (shifted_unique 24 (b - a) d d' ltac:(lra) S1 S2 0 ltac:(lra) ltac:(lra)). Qed.

Lemma pole_quad_spec data pole a dl : hours_east data pole dl ->
  define_pole_quadrants (Some data) (Some pole) (Some a) =
  Ok (if Rlt_dec a 90 then if Rlt_dec dl 12 then 1%Z else 2%Z else if Rlt_dec dl 12 then 4%Z else 3%Z).
Proof.
  intros H. unfold define_pole_quadrants. destruct (del_lt_spec data pole) as [d [E K]]. rewrite E. cbn [bind].
  now rewrite (hours_east_unique _ _ _ _ K H).
Qed.

(** ** Rotation *)
Lemma deg_degrees x : deg (degrees x) = x.
Proof. unfold deg, degrees. pose proof PI_RGT_0. field. lra. Qed.
Lemma radians_deg x : radians x = deg x.
Proof. reflexivity. Qed.

Lemma deg_180 : deg 180 = PI. Proof. unfold deg. lra. Qed.
Lemma deg_lin a b : deg (a - b) = deg a - deg b. Proof. unfold deg. lra. Qed.
Lemma deg_add a b : deg (a + b) = deg a + deg b. Proof. unfold deg. lra. Qed.

(** Magnitude and azimuth of a horizontal vector. *)
Lemma azimuth n e : ~ (n = 0 /\ e = 0) ->
  exists m b, vmag (Some n) (Some e) = Some m /\ base_naz (Some n) (Some e) = Some b /\ 0 < m /\ 0 <= b <= 180 /\
    n = m * cos (deg b) /\ Rabs e = m * sin (deg b) /\
    (b < 90 -> 0 <= n) /\ (90 < b -> n < 0) /\ (b = 90 -> n = 0).
Proof.
  intros NZ. pose proof PI_RGT_0.
  set (m := sqrt (n ^ 2 + e ^ 2)).
  assert (S : 0 < n ^ 2 + e ^ 2).
  { pose proof (pow2_ge_0 n). pose proof (pow2_ge_0 e).
    destruct (Req_dec n 0) as [->|N]; [destruct (Req_dec e 0) as [->|E]; [tauto|]|].
    - assert (0 < e ^ 2) by nra. lra.
    - assert (0 < n ^ 2) by nra. lra. }
  assert (M : 0 < m) by (apply sqrt_lt_R0; exact S).
  assert (MM : m * m = n ^ 2 + e ^ 2) by (apply sqrt_sqrt; lra).
  assert (C : -1 <= n / m <= 1).
  { assert (n * n <= m * m) by (pose proof (pow2_ge_0 e); nra).
    assert (- m <= n <= m) by nra.
    split; [apply (Rmult_le_reg_r m); [lra|]|apply (Rmult_le_reg_r m); [lra|]];
      unfold Rdiv; rewrite Rmult_assoc, Rinv_l by lra; lra. }
  exists m, (degrees (acos (n / m))).
  assert (AB : 0 <= acos (n / m) <= PI) by apply acos_bound.
  assert (AC : cos (acos (n / m)) = n / m) by (apply cos_acos; exact C).
  split; [reflexivity|]. split.
  { unfold base_naz, vmag. cbn [fmap2]. unfold fdiv2. fold m. destruct (Req_EM_T m 0); [lra|].
    unfold facos. destruct (Rle_dec (-1) (n / m)); [|lra]. destruct (Rle_dec (n / m) 1); [reflexivity|lra]. }
  split; [exact M|]. rewrite deg_degrees, AC.
  assert (N : n = m * (n / m)) by (field; lra).
  split.
  { unfold degrees. split.
    - apply Rmult_le_pos; [lra|]. left. apply Rinv_0_lt_compat. lra.
    - apply (Rmult_le_reg_r PI); [lra|]. unfold Rdiv. rewrite Rmult_assoc, Rinv_l by lra. lra. }
  split; [exact N|]. split.
  { rewrite sin_acos by exact C. unfold Rsqr.
    assert (0 <= 1 - n / m * (n / m)) by nra.
    replace (1 - n / m * (n / m)) with ((e / m) ^ 2).
    - replace ((e / m) ^ 2) with ((e / m)²) by (unfold Rsqr; ring). rewrite sqrt_Rsqr_abs.
      unfold Rdiv. rewrite Rabs_mult, (Rabs_pos_eq (/ m)) by (left; apply Rinv_0_lt_compat; lra). field. lra.
    - replace ((e / m) ^ 2) with (e ^ 2 / (m * m)) by (field; lra). replace (e ^ 2) with (m * m - n ^ 2) by lra. field. lra. }
  assert (K : forall x, degrees x < 90 <-> x < PI / 2).
  { intros x. unfold degrees. split; intros L.
    - apply (Rmult_lt_reg_r (180 / PI)); [apply Rdiv_lt_0_compat; lra|]. replace (PI / 2 * (180 / PI)) with 90 by (field; lra). lra.
    - apply (Rmult_lt_reg_r (PI / 180)); [apply Rdiv_lt_0_compat; lra|]. replace (x * 180 / PI * (PI / 180)) with x by (field; lra). lra. }
  assert (K' : forall x, 90 < degrees x <-> PI / 2 < x).
  { intros x. unfold degrees. split; intros L.
    - apply (Rmult_lt_reg_r (180 / PI)); [apply Rdiv_lt_0_compat; lra|]. replace (PI / 2 * (180 / PI)) with 90 by (field; lra). lra.
    - apply (Rmult_lt_reg_r (PI / 180)); [apply Rdiv_lt_0_compat; lra|]. replace (x * 180 / PI * (PI / 180)) with x by (field; lra). lra. }
  split; [|split].
  - intros L. apply K in L. rewrite N, <- AC. apply Rmult_le_pos; [lra|]. apply cos_ge_0; lra.
  - intros L. apply K' in L. rewrite N, <- AC.
    assert (cos (acos (n / m)) < 0) by (apply cos_lt_0; lra). nra.
  - intros E. assert (acos (n / m) = PI / 2).
    { destruct (Rtotal_order (acos (n / m)) (PI / 2)) as [L|[L|L]]; [apply K in L; lra|exact L|apply K' in L; lra]. }
    rewrite N, <- AC, H0, cos_PI2. lra.
Qed.

(** Signed cosine and sine from the acute angle. *)
Lemma acute_val d : 0 <= d <= 180 -> exists x, acute (Some d) = Some x /\
  cos x = Rabs (cos (deg d)) /\ sin x = sin (deg d).
Proof.
  intros H. pose proof PI_RGT_0. assert (B : 0 <= deg d <= PI) by (unfold deg; nra).
  unfold acute. cbn [fmap option_map]. rewrite radians_deg.
  destruct (Rlt_dec (PI / 2) (deg d)) as [L|L].
  - exists (PI - deg d). split; [reflexivity|]. rewrite Rtrigo_facts.cos_pi_minus, Rtrigo_facts.sin_pi_minus. split; [|reflexivity].
    rewrite Rabs_left1; [reflexivity|]. apply cos_le_0; lra.
  - exists (deg d). split; [reflexivity|]. split; [|reflexivity]. rewrite Rabs_pos_eq; [reflexivity|]. apply cos_ge_0; lra.
Qed.

Lemma cos_sign_deg x : (-90 <= x <= 90 -> 0 <= cos (deg x)) /\ (90 <= x <= 270 -> cos (deg x) <= 0) /\ (270 <= x <= 450 -> 0 <= cos (deg x)) /\
  (-270 <= x <= -90 -> cos (deg x) <= 0).
Proof.
  pose proof PI_RGT_0. unfold deg. split; [|split; [|split]]; intros H'.
  - apply cos_ge_0; nra.
  - apply cos_le_0; nra.
  - replace (x * PI / 180) with ((x - 360) * PI / 180 + 2 * PI) by field. rewrite cos_plus, cos_2PI, sin_2PI.
    assert (0 <= cos ((x - 360) * PI / 180)) by (apply cos_ge_0; nra). lra.
  - rewrite <- cos_neg. apply cos_le_0; nra.
Qed.
Lemma sin_sign_deg x : (0 <= x <= 180 -> 0 <= sin (deg x)) /\ (180 <= x <= 360 -> sin (deg x) <= 0) /\ (-180 <= x <= 0 -> sin (deg x) <= 0).
Proof.
  pose proof PI_RGT_0. unfold deg. split; [|split]; intros H'.
  - apply sin_ge_0; nra.
  - apply sin_le_0; nra.
  - replace (x * PI / 180) with (- (- x * PI / 180)) by field. rewrite sin_neg.
    assert (0 <= sin (- x * PI / 180)) by (apply sin_ge_0; nra). lra.
Qed.
Lemma cos_360 x : cos (deg (360 - x)) = cos (deg x).
Proof. unfold deg. replace ((360 - x) * PI / 180) with (- (x * PI / 180) + 2 * PI) by field. rewrite cos_plus, cos_2PI, sin_2PI, cos_neg. lra. Qed.
Lemma sin_360 x : sin (deg (360 - x)) = - sin (deg x).
Proof. unfold deg. replace ((360 - x) * PI / 180) with (- (x * PI / 180) + 2 * PI) by field. rewrite sin_plus, cos_2PI, sin_2PI, sin_neg. lra. Qed.

Definition sign_of (s : Z) (x : R) : Prop := (s = 1%Z /\ 0 <= x) \/ (s = (-1)%Z /\ x <= 0).
Lemma sign_abs s x : sign_of s x -> IZR s * Rabs x = x.
Proof. intros [[-> H]|[-> H]]; [rewrite Rabs_pos_eq by exact H|rewrite Rabs_left1 by exact H]; lra. Qed.

Lemma sin_of_cos d x : 0 <= d <= 180 -> cos (deg d) = cos (deg x) -> sin (deg d) = Rabs (sin (deg x)).
Proof.
  intros H E. destruct (sin_sign_deg d) as [S _]. specialize (S H).
  rewrite <- (Rabs_pos_eq _ S). apply Rsqr_eq_abs_0.
  pose proof (sin2_cos2 (deg d)). pose proof (sin2_cos2 (deg x)). unfold Rsqr in *. rewrite E in H0. lra.
Qed.

Lemma components_val sn se m d x t : 0 <= d <= 180 -> cos (deg d) = cos (deg x) -> (t = 1 \/ t = -1) ->
  sign_of sn (cos (deg x)) -> sign_of se (t * sin (deg x)) ->
  components sn se (Some m) (Some d) = (Some (m * cos (deg x)), Some (t * m * sin (deg x))).
Proof.
  intros H C T SN SE. destruct (acute_val d H) as [y [E [CY SY]]]. unfold components. rewrite E. cbn [fmap2].
  rewrite CY, SY, (sin_of_cos d x H C), C. apply f_equal2; apply f_equal.
  - rewrite <- (sign_abs _ _ SN) at 2. lra.
  - replace (t * m * sin (deg x)) with (m * (t * sin (deg x))) by lra. rewrite <- (sign_abs _ _ SE).
    rewrite Rabs_mult. replace (Rabs t) with 1 by (destruct T as [-> | ->]; [rewrite Rabs_pos_eq by lra|rewrite Rabs_left by lra]; lra). lra.
Qed.

Definition vq_of (n e : R) : Z := define_vect_quadrants (Some n) (Some e).
Definition pq_of (a : R) (is_east : bool) : Z :=
  if Rlt_dec a 90 then if is_east then 1%Z else 2%Z else if is_east then 4%Z else 3%Z.

Lemma combos_val pq vq b a : quad_ok pq = true -> quad_ok vq = true -> exists d, dest_angle pq vq (Some b) (Some a) = Some d.
Proof.
  intros P V. unfold quad_ok in *. apply andb_prop in P, V. destruct P as [P1 P2], V as [V1 V2].
  apply Z.leb_le in P1, P2, V1, V2.
  assert (pq = 1 \/ pq = 2 \/ pq = 3 \/ pq = 4)%Z as PC by lia. assert (vq = 1 \/ vq = 2 \/ vq = 3 \/ vq = 4)%Z as VC by lia.
  destruct PC as [-> |[-> |[-> | ->]]]; destruct VC as [-> |[-> |[-> | ->]]]; cbn; eexists; reflexivity.
Qed.

Lemma fle_true x y : x <= y -> fle (Some x) (Some y) = true.
Proof. intros H. cbn. now destruct (Rle_dec x y). Qed.
Lemma fle_false x y : y < x -> fle (Some x) (Some y) = false.
Proof. intros H. cbn. destruct (Rle_dec x y); [lra|reflexivity]. Qed.

Definition pm (b : bool) : R := if b then 1 else -1.
Lemma quad_cases (est ep np : bool) a b : 0 <= a <= 180 -> 0 <= b <= 180 -> (if np then b <= 90 else 90 <= b) ->
  let pq := pq_of a est in
  let vq := if np then if ep then 1%Z else 2%Z else if ep then 4%Z else 3%Z in
  let x := b - pm est * pm ep * a in
  exists d, dest_angle pq vq (Some b) (Some a) = Some d /\ 0 <= d <= 180 /\ cos (deg d) = cos (deg x) /\
    sign_of (sign_north pq vq (Some b) (Some a)) (cos (deg x)) /\
    sign_of (sign_east pq vq (Some b) (Some a)) (pm ep * sin (deg x)).
Proof.
  intros A B Hb pq vq x.
  assert (AX : cos (deg (Rabs (b - a))) = cos (deg (b - a))).
  { unfold Rabs. destruct (Rcase_abs (b - a)); [|reflexivity]. replace (deg (- (b - a))) with (- deg (b - a)) by (unfold deg; lra).
    apply cos_neg. }
  assert (AD : cos (deg (360 - (a + b))) = cos (deg (a + b))) by apply cos_360.
  assert (AM : cos (deg (a - b)) = cos (deg (b - a))).
  { replace (deg (a - b)) with (- deg (b - a)) by (unfold deg; lra). apply cos_neg. }
  assert (X : (pm est * pm ep = 1 -> x = b - a) /\ (pm est * pm ep = -1 -> x = a + b)).
  { unfold x. split; intros ->; lra. }
  clearbody x. subst pq vq. unfold pq_of.
  destruct (cos_sign_deg x) as [CP [CN [CQ CM]]]. destruct (sin_sign_deg x) as [SP [SN SQ]]. unfold sign_of.
  destruct np; destruct (Rlt_dec a 90) as [Ha|Ha]; destruct est; destruct ep; unfold pm in *;
    cbn [dest_angle sign_north sign_east quads Z.eqb Pos.eqb andb orb];
    destruct X as [X1 X2];
    first [assert (x = b - a) by (apply X1; lra) | assert (x = a + b) by (apply X2; lra)]; subst x; clear X1 X2;
    unfold fle; repeat match goal with |- context [Rle_dec ?p ?q] => destruct (Rle_dec p q) end; cbn [andb orb];
    try match goal with |- context [Rlt_dec 180 ?z] => destruct (Rlt_dec 180 z) end;
    (eexists; split; [reflexivity|]; split; [try (unfold Rabs; destruct (Rcase_abs _)); lra|];
     split; [first [exact AX | reflexivity | exact AD | exact AM | replace (360 - b - a) with (360 - (a + b)) by lra; exact AD]|]).
  all: clear AX AD AM.
  all: split; [first [left; split; [reflexivity|first [apply CP; lra|apply CQ; lra]]|right; split; [reflexivity|first [apply CN; lra|apply CM; lra]]]|];
       clear CP CN CQ CM;
       first [ assert (Z0 : 0 <= sin (deg (b - a))) by (apply SP; lra)
             | assert (Z0 : sin (deg (b - a)) <= 0) by (first [apply SN; lra|apply SQ; lra])
             | assert (Z0 : 0 <= sin (deg (a + b))) by (apply SP; lra)
             | assert (Z0 : sin (deg (a + b)) <= 0) by (first [apply SN; lra|apply SQ; lra]) ];
       first [left; split; [reflexivity|lra]|right; split; [reflexivity|lra]].
Qed.

Lemma rotation n e a (est : bool) : ~ (n = 0 /\ e = 0) -> 0 <= a <= 180 ->
  let s := pm est in
  let pq := pq_of a est in let vq := vq_of n e in
  exists d, dest_angle pq vq (base_naz (Some n) (Some e)) (Some a) = Some d /\ 0 <= d <= 180 /\
    cos (deg d) * sqrt (n ^ 2 + e ^ 2) = fst (rotated s a n e) /\
    components (sign_north pq vq (base_naz (Some n) (Some e)) (Some a)) (sign_east pq vq (base_naz (Some n) (Some e)) (Some a))
      (vmag (Some n) (Some e)) (Some d) = (Some (fst (rotated s a n e)), Some (snd (rotated s a n e))).
Proof.
  intros NZ A s pq vq. destruct (azimuth n e NZ) as (m & b & EM & EB & M & B & N & E & L1 & L2 & L3).
  assert (MV : sqrt (n ^ 2 + e ^ 2) = m) by (exact (f_equal (fun o : fl => match o with Some y => y | None => 0 end) EM)).
  rewrite EM, EB, MV. set (ep := if Rle_dec 0 e then true else false). set (t := pm ep).
  assert (T : t = 1 \/ t = -1) by (unfold t, ep, pm; destruct (Rle_dec 0 e); auto).
  assert (ET : e = t * m * sin (deg b)).
  { unfold t, ep, pm. destruct (Rle_dec 0 e) as [H|H]; [rewrite Rabs_pos_eq in E by lra|rewrite Rabs_left in E by lra]; lra. }
  assert (SS : s * s = 1) by (unfold s, pm; destruct est; lra).
  assert (TT : t * t = 1) by (destruct T as [-> | ->]; lra).
  (* the rotation in terms of azimuths *)
  set (x := b - s * t * a).
  assert (RX : forall u, u = 1 \/ u = -1 -> cos (deg (b - u * a)) = cos (deg b) * cos (deg a) + u * sin (deg b) * sin (deg a) /\
                         sin (deg (b - u * a)) = sin (deg b) * cos (deg a) - u * cos (deg b) * sin (deg a)).
  { intros u U. rewrite deg_lin. destruct U as [-> | ->].
    - replace (deg (1 * a)) with (deg a) by (f_equal; lra). rewrite cos_minus, sin_minus. lra.
    - replace (deg (-1 * a)) with (- deg a) by (unfold deg; lra). replace (deg b - - deg a) with (deg b + deg a) by lra.
      rewrite cos_plus, sin_plus. lra. }
  assert (U : s * t = 1 \/ s * t = -1) by (unfold s, pm; destruct T as [-> | ->]; destruct est; lra).
  destruct (RX (s * t) U) as [CX SX]. fold x in CX, SX.
  assert (RN : fst (rotated s a n e) = m * cos (deg x)).
  { unfold rotated. cbn [fst]. rewrite CX, ET, N. ring. }
  assert (RE : snd (rotated s a n e) = t * m * sin (deg x)).
  { unfold rotated. cbn [snd]. rewrite SX, ET, N.
    replace (t * m * (sin (deg b) * cos (deg a) - s * t * cos (deg b) * sin (deg a)))
      with (t * m * sin (deg b) * cos (deg a) - s * (t * t) * (m * cos (deg b)) * sin (deg a)) by ring. rewrite TT. ring. }
  rewrite RN, RE.
  enough (K : exists d, dest_angle pq vq (Some b) (Some a) = Some d /\ 0 <= d <= 180 /\ cos (deg d) = cos (deg x) /\
            sign_of (sign_north pq vq (Some b) (Some a)) (cos (deg x)) /\
            sign_of (sign_east pq vq (Some b) (Some a)) (t * sin (deg x))).
  { destruct K as (d & K1 & K2 & K3 & K4 & K5). exists d. split; [exact K1|]. split; [exact K2|]. split; [rewrite K3; lra|].
    apply components_val; assumption. }
  set (np := if Rle_dec 0 n then true else false).
  assert (HB : if np then b <= 90 else 90 <= b).
  { unfold np. destruct (Rle_dec 0 n) as [H|H]; destruct (Rtotal_order b 90) as [Q|[Q|Q]]; try lra; first [apply L2 in Q; lra|apply L1 in Q; lra]. }
  assert (VQ : vq = if np then if ep then 1%Z else 2%Z else if ep then 4%Z else 3%Z).
  { unfold vq, vq_of, define_vect_quadrants, np, ep. destruct (Rle_dec 0 n), (Rle_dec 0 e), (Rlt_dec e 0); try reflexivity; lra. }
  rewrite VQ. exact (quad_cases est ep np a b A B HB).
Qed.

(** ** The pole angle *)

(** Vincenty's two arguments are the sine and cosine of the distance. *)
Lemma vincenty p v d :
  let y2 := (cos p * sin d) ^ 2 + (cos v * sin p - sin v * cos p * cos d) ^ 2 in
  let x := sin v * sin p + cos v * cos p * cos d in
  y2 = 1 - x ^ 2.
Proof.
  cbv zeta. pose proof (sin2_cos2 p) as P. pose proof (sin2_cos2 v) as V. pose proof (sin2_cos2 d) as D. unfold Rsqr in *.
  assert (E : (cos p * sin d) ^ 2 = cos p * cos p * (1 - cos d * cos d)) by (replace (1 - cos d * cos d) with (sin d * sin d) by lra; ring).
  rewrite E.
  replace ((cos v * sin p - sin v * cos p * cos d) ^ 2) with
    (cos v * cos v * (sin p * sin p) - 2 * (cos v * sin p * sin v * cos p * cos d) + sin v * sin v * (cos p * cos p) * (cos d * cos d)) by ring.
  replace (1 - (sin v * sin p + cos v * cos p * cos d) ^ 2) with
    (1 - sin v * sin v * (sin p * sin p) - 2 * (cos v * sin p * sin v * cos p * cos d) - cos v * cos v * (cos p * cos p) * (cos d * cos d)) by ring.
  replace (sin v * sin v) with (1 - cos v * cos v) by lra. replace (sin p * sin p) with (1 - cos p * cos p) by lra. ring.
Qed.

Lemma atan2_unit y x : 0 <= y -> x ^ 2 + y ^ 2 = 1 -> cos (atan2 y x) = x /\ sin (atan2 y x) = y /\ 0 <= atan2 y x <= PI.
Proof.
  intros Y E. destruct (atan2_spec y x) as [A B]. cbv zeta in A, B. rewrite E, sqrt_1 in A, B. pose proof (atan2_bound y x) as C.
  rewrite Rmult_1_l in A, B. split; [now symmetry|]. split; [now symmetry|]. split; [|lra].
  destruct (Rle_dec 0 (atan2 y x)) as [L|L]; [exact L|exfalso].
  assert (sin (atan2 y x) < 0).
  { assert (0 < sin (- atan2 y x)) by (apply sin_gt_0; lra). rewrite sin_neg in H. lra. }
  lra.
Qed.

(** The half-angle formula, given the cosine of the angle. *)
Lemma half_angle_formula a b c C : sin b * sin c <> 0 -> -1 <= C <= 1 -> cos a = cos b * cos c + sin b * sin c * C ->
  let s := 1 / 2 * (b + c + a) in
  exists h, fsqrt (sin s * sin (s - a) / (sin b * sin c)) = Some h /\
    exists t, facos h = Some t /\ 0 <= 2 * t <= PI /\ cos (2 * t) = C.
Proof.
  intros N HC E s.
  assert (Q : sin s * sin (s - a) / (sin b * sin c) = (1 + C) / 2).
  { assert (P : sin s * sin (s - a) = (cos a - cos (b + c)) / 2).
    { assert (A1 : cos a = cos s * cos (s - a) + sin s * sin (s - a)) by (rewrite <- cos_minus; apply (f_equal cos); lra).
      assert (A2 : cos (b + c) = cos s * cos (s - a) - sin s * sin (s - a)) by (rewrite <- cos_plus; apply (f_equal cos); unfold s; lra).
      rewrite A1, A2. lra. }
    rewrite P, E, cos_plus. field. split; intros Z; apply N; rewrite Z; ring. }
  rewrite Q. unfold fsqrt. destruct (Rlt_dec ((1 + C) / 2) 0); [lra|]. exists (sqrt ((1 + C) / 2)). split; [reflexivity|].
  assert (HS : 0 <= sqrt ((1 + C) / 2) <= 1).
  { split; [apply sqrt_pos|]. assert (L : sqrt ((1 + C) / 2) <= sqrt 1) by (apply sqrt_le_1_alt; lra). rewrite sqrt_1 in L. exact L. }
  exists (acos (sqrt ((1 + C) / 2))). unfold facos.
  destruct (Rle_dec (-1) (sqrt ((1 + C) / 2))); [|lra]. destruct (Rle_dec (sqrt ((1 + C) / 2)) 1); [|lra].
  split; [reflexivity|]. pose proof (acos_bound (sqrt ((1 + C) / 2))) as AB.
  assert (CA : cos (acos (sqrt ((1 + C) / 2))) = sqrt ((1 + C) / 2)) by (apply cos_acos; lra).
  split.
  - split; [lra|]. destruct (Rle_dec (acos (sqrt ((1 + C) / 2))) (PI / 2)) as [L|L]; [lra|exfalso].
    assert (cos (acos (sqrt ((1 + C) / 2))) < 0) by (apply cos_lt_0; pose proof PI_RGT_0; lra). lra.
  - rewrite cos_2a_cos, CA. replace (2 * sqrt ((1 + C) / 2) * sqrt ((1 + C) / 2)) with (2 * (sqrt ((1 + C) / 2) * sqrt ((1 + C) / 2))) by ring.
    rewrite sqrt_sqrt by lra. lra.
Qed.
