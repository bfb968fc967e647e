(** C185: the middle times of DMSP passes in binary64. *)
From Coq Require Import ZArith QArith Qround Qreals Reals List Bool Lia Lra.
From Flocq Require Import Core BinarySingleNaN Mult_error.
From Verif Require Import PyBase CycleModel TimeModel TimeSpec FloatModel FloatProofs FtimeModel FtimeSpec FtimeProofs FtimeProofs2 FradProofs FsoyModel FsoyProofs PropertiesFsoy SsjModel FmidModel.
Import ListNotations.
Open Scope R_scope.

Lemma nearest_R x : toR (f64_nearest x) = IZR (ZnearestE (toR x)) /\ fin (f64_nearest x) = fin x.
Proof. destruct (Bnearbyint_correct 53 1024 emax1024 mode_NE x) as (A & B & _). split; [|exact B]. unfold f64_nearest. rewrite A. apply fix_round. Qed.
Lemma half_R : toR (f64_div (whole 1) (whole 2)) = / 2 /\ fin (f64_div (whole 1) (whole 2)) = true.
Proof.
  destruct (whole_R 1 ltac:(lia)) as (W1 & F1 & _). destruct (whole_R 2 ltac:(lia)) as (W2 & F2 & _).
  assert (B : 1 <= bpow radix2 1000) by (change 1 with (bpow radix2 0); apply bpow_le; lia).
  destruct (div_R (whole 1) (whole 2) F1) as [D E]; [rewrite W2; lra|rewrite W1, W2, Rabs_pos_eq; lra|].
  rewrite W1, W2 in D. split; [|exact E]. rewrite D. replace (1 / 2) with (bpow radix2 (-1)) by (change (bpow radix2 (-1)) with (/ 2); lra).
  change (/ 2) with (bpow radix2 (-1)). apply round_generic; [exact (valid_rnd_N _)|]. apply generic_format_bpow. unfold FLT_exp. lia.
Qed.
Lemma small_err x b : 0 <= x <= b -> Rabs (rnd x - x) <= u * (b + 1).
Proof.
  intros H. eapply Rle_trans; [apply rnd_bound|]. rewrite Rabs_pos_eq by lra.
  assert (T : tiny <= u) by (apply bpow_le; lia). pose proof u_pos. assert (u * x <= u * b) by (apply Rmult_le_compat_l; lra). lra.
Qed.
Lemma rnd_nonneg x : 0 <= x -> 0 <= rnd x.
Proof. intros H. rewrite <- rnd_zero. now apply rnd_mono. Qed.

(** The microseconds of a timedelta. *)
Lemma timedelta_value x : fin x = true -> 0 <= toR x <= 1099511627776 ->
  timedelta_seconds x = Ok (Zfloor (toR x) * 1000000 + ZnearestE (rnd ((toR x - IZR (Zfloor (toR x))) * 1000000)))%Z.
Proof.
  intros F B. destruct (trunc_R x) as [T1 T2]. rewrite (Ztrunc_floor _ (proj1 B)) in T1. set (k := Zfloor (toR x)) in *.
  pose proof (Zfloor_lb (toR x)) as LB. pose proof (Zfloor_ub (toR x)) as UB. fold k in LB, UB.
  assert (K0 : (0 <= k)%Z) by (apply Zfloor_lub; lra). assert (KR : 0 <= IZR k) by (apply IZR_le; exact K0).
  assert (B40 : bpow radix2 40 <= bpow radix2 52 /\ bpow radix2 52 <= bpow radix2 1000) by (split; apply bpow_le; lia). rewrite b40 in B40.
  assert (S : rnd (toR x - IZR k) = toR x - IZR k).
  { apply round_generic; [exact (valid_rnd_N _)|]. apply exact_minus; [apply isf_toR| |]; rewrite !Rabs_pos_eq; lra. }
  destruct (sub_R x (f64_trunc x) F ltac:(now rewrite T2)) as [S1 S2]; [rewrite T1, Rabs_pos_eq; lra|]. rewrite T1, S in S1.
  destruct (whole_R 1000000 ltac:(lia)) as (W & WF & _).
  destruct (mul_R (f64_sub x (f64_trunc x)) (whole 1000000) S2 WF) as [M1 M2]; [rewrite W, S1, Rabs_pos_eq; lra|]. rewrite W, S1 in M1.
  destruct (nearest_R (f64_mul (f64_sub x (f64_trunc x)) (whole 1000000))) as [N1 N2]. rewrite M1 in N1.
  unfold timedelta_seconds. rewrite (b2z_int _ _ T1), (b2z_int _ _ N1). destruct x; try discriminate F; reflexivity.
Qed.
(** ... the seconds times 10^6 up to half a microsecond. *)
Lemma timedelta_R x : fin x = true -> 0 <= toR x <= 1099511627776 ->
  exists us y, timedelta_seconds x = Ok us /\ us = ZnearestE y /\ Rabs (y - toR x * 1000000) <= 1000001 * u.
Proof.
  intros F B. rewrite (timedelta_value x F B). set (k := Zfloor (toR x)).
  pose proof (Zfloor_lb (toR x)) as LB. pose proof (Zfloor_ub (toR x)) as UB. fold k in LB, UB.
  set (y := rnd ((toR x - IZR k) * 1000000)).
  exists (k * 1000000 + ZnearestE y)%Z, (IZR (k * 1000000) + y). split; [|split].
  - reflexivity.
  - replace (IZR (k * 1000000) + y) with (y + IZR (k * 1000000)) by ring.
    assert (E : Z.even (k * 1000000) = true) by (rewrite Z.even_mul, Bool.orb_true_r; reflexivity).
    set (z := (k * 1000000)%Z) in *. symmetry. unfold ZnearestE, Znearest.
    assert (FL : Zfloor (y + IZR z) = (Zfloor y + z)%Z) by (apply Zfloor_imp; rewrite !plus_IZR; pose proof (Zfloor_lb y); pose proof (Zfloor_ub y); lra).
    assert (CL : Zceil (y + IZR z) = (Zceil y + z)%Z).
    { unfold Zceil. replace (- (y + IZR z)) with (- y + IZR (- z)) by (rewrite opp_IZR; ring).
      assert (G : Zfloor (- y + IZR (- z)) = (Zfloor (- y) + - z)%Z) by (apply Zfloor_imp; rewrite !plus_IZR; pose proof (Zfloor_lb (- y)); pose proof (Zfloor_ub (- y)); lra). rewrite G. lia. }
    rewrite FL, CL, plus_IZR. replace (y + IZR z - (IZR (Zfloor y) + IZR z)) with (y - IZR (Zfloor y)) by ring.
    rewrite Z.even_add, E. replace (Bool.eqb (Z.even (Zfloor y)) true) with (Z.even (Zfloor y)) by (destruct (Z.even (Zfloor y)); reflexivity).
    destruct (Rcompare (y - IZR (Zfloor y)) (/ 2)); destruct (Z.even (Zfloor y)); cbn [negb]; lia.
  - pose proof (small_err ((toR x - IZR k) * 1000000) 1000000 ltac:(lra)) as R. fold y in R. rewrite mult_IZR.
    replace (IZR k * 1000000 + y - toR x * 1000000) with (y - (toR x - IZR k) * 1000000) by ring. lra.
Qed.

(** Later seconds are not earlier microseconds. *)
Lemma timedelta_mono x y : fin x = true -> fin y = true -> 0 <= toR x -> toR x <= toR y -> toR y <= 1099511627776 ->
  exists a b, timedelta_seconds x = Ok a /\ timedelta_seconds y = Ok b /\ (a <= b)%Z.
Proof.
  intros F G X XY Y. rewrite (timedelta_value x F ltac:(lra)), (timedelta_value y G ltac:(lra)).
  eexists _, _. split; [reflexivity|]. split; [reflexivity|].
  pose proof (Zfloor_lb (toR x)) as LX. pose proof (Zfloor_ub (toR x)) as UX. pose proof (Zfloor_lb (toR y)) as LY. pose proof (Zfloor_ub (toR y)) as UY.
  pose proof (Zfloor_le _ _ XY) as K. set (k := Zfloor (toR x)) in *. set (l := Zfloor (toR y)) in *. clearbody k l.
  assert (M : forall v w, v <= w -> (ZnearestE v <= ZnearestE w)%Z) by (intros v w; apply (@Zrnd_le ZnearestE _)).
  destruct (Z.eq_dec k l) as [E|E].
  - subst l. enough (ZnearestE (rnd ((toR x - IZR k) * 1000000)) <= ZnearestE (rnd ((toR y - IZR k) * 1000000)))%Z by lia.
    apply M, rnd_mono. lra.
  - assert (A : (ZnearestE (rnd ((toR x - IZR k) * 1000000)) <= 1000000)%Z).
    { eapply Z.le_trans; [apply (M _ (rnd (IZR 1000000))), rnd_mono; lra|]. rewrite rnd_whole by lia. rewrite (@Zrnd_IZR ZnearestE _). lia. }
    assert (C : (0 <= ZnearestE (rnd ((toR y - IZR l) * 1000000)))%Z).
    { replace 0%Z with (ZnearestE (rnd (IZR 0))) by (rewrite rnd_whole by lia; apply (@Zrnd_IZR ZnearestE _)). apply M, rnd_mono. lra. }
    nia.
Qed.

(** A value close to a whole number is rounded to it. *)
Lemma nearest_close y z : Rabs (y - IZR z) < / 2 -> ZnearestE y = z.
Proof. intros H. apply Znearest_imp. exact H. Qed.
Lemma nearest_half y : Rabs (IZR (ZnearestE y) - y) <= / 2.
Proof. rewrite Rabs_minus_sym. apply Znearest_half. Qed.

Lemma mid_R day a b : fin a = true -> fin b = true -> 0 <= toR a <= 172801 -> 0 <= toR b <= 172801 ->
  exists us y, mid_time_f day a b = add_us day us /\ us = ZnearestE y /\ Rabs (y - (toR a + toR b) / 2 * 1000000) <= / 10000.
Proof.
  intros FA FB A B. destruct half_R as [H HF]. assert (B40 : bpow radix2 40 <= bpow radix2 1000) by (apply bpow_le; lia). rewrite b40 in B40.
  destruct (add_R b a FB FA) as [S1 S2]; [rewrite Rabs_pos_eq; lra|].
  pose proof (small_err (toR b + toR a) 345602 ltac:(lra)) as E1. rewrite <- S1 in E1. apply Rabs_le_inv in E1.
  assert (P1 : 0 <= toR (f64_add b a)) by (rewrite S1; apply rnd_nonneg; lra).
  assert (U : u = / 9007199254740992) by reflexivity. rewrite U in E1.
  destruct (mul_R (f64_div (whole 1) (whole 2)) (f64_add b a) HF S2) as [M1 M2]; [rewrite H, Rabs_pos_eq; lra|]. rewrite H in M1.
  pose proof (small_err (/ 2 * toR (f64_add b a)) 172802 ltac:(lra)) as E2. rewrite <- M1, U in E2. apply Rabs_le_inv in E2.
  assert (P2 : 0 <= toR (f64_mul (f64_div (whole 1) (whole 2)) (f64_add b a))) by (rewrite M1; apply rnd_nonneg; lra).
  destruct (timedelta_R _ M2 ltac:(lra)) as (us & y & T & N & Y). rewrite U in Y. apply Rabs_le_inv in Y.
  exists us, y. unfold mid_time_f. rewrite T. split; [reflexivity|]. split; [exact N|]. apply Rabs_le. lra.
Qed.

(** The middle of two seconds of day, up to half a microsecond (and 0.0001 of one). *)
Theorem C185_middle_partial :
  forall day a b, is_finite a = true -> is_finite b = true -> 0 <= B2R a <= 172800 -> 0 <= B2R b <= 172800 ->
    exists us, mid_time_f day a b = add_us day us /\ Rabs (IZR us - (B2R a + B2R b) / 2 * 1000000) <= / 2 + / 10000.
Proof.
  intros day a b FA FB A B. destruct (mid_R day a b FA FB ltac:(lra) ltac:(lra)) as (us & y & E & N & Y). exists us. split; [exact E|].
  rewrite N. pose proof (nearest_half y) as K. apply Rabs_le_inv in K. apply Rabs_le_inv in Y. apply Rabs_le. lra.
Qed.

(** The order of the two times does not matter, and the middle is not before the earlier nor
    after the later. *)
Theorem C185_between :
  forall day a b, is_finite a = true -> is_finite b = true -> 0 <= B2R a -> B2R a <= B2R b -> B2R b <= 172800 ->
    exists ua us ub, timedelta_seconds a = Ok ua /\ timedelta_seconds b = Ok ub /\ (ua <= us <= ub)%Z /\
      mid_time_f day a b = add_us day us /\ mid_time_f day b a = add_us day us.
Proof.
  intros day a b FA FB A AB B. destruct half_R as [H HF]. assert (B40 : bpow radix2 40 <= bpow radix2 1000) by (apply bpow_le; lia). rewrite b40 in B40.
  assert (D : forall x, fin x = true -> rnd (2 * toR x) = 2 * toR x).
  { intros x F. apply round_generic; [exact (valid_rnd_N _)|]. replace (2 * toR x) with (toR x * bpow radix2 1) by (change (bpow radix2 1) with 2; ring).
    apply mult_bpow_pos_exact_FLT; [apply isf_toR|lia]. }
  assert (I : forall x, fin x = true -> rnd (toR x) = toR x) by (intros x F; apply round_generic; [exact (valid_rnd_N _)|apply isf_toR]).
  assert (L : forall x y, fin x = true -> fin y = true -> toR x = toR a /\ toR y = toR b \/ toR x = toR b /\ toR y = toR a ->
    exists m, fin m = true /\ toR m = rnd (/ 2 * rnd (toR a + toR b)) /\ m = f64_mul (f64_div (whole 1) (whole 2)) (f64_add x y)).
  { intros x y FX FY E. eexists. split; [|split; [|reflexivity]].
    all: destruct (add_R x y FX FY) as [S1 S2]; [rewrite Rabs_pos_eq; destruct E as [[-> ->]|[-> ->]]; lra|].
    all: replace (toR x + toR y) with (toR a + toR b) in S1 by (destruct E as [[-> ->]|[-> ->]]; ring).
    all: assert (P : 2 * toR a <= toR (f64_add x y) <= 2 * toR b) by (rewrite S1, <- (D a FA), <- (D b FB); split; apply rnd_mono; lra).
    all: destruct (mul_R (f64_div (whole 1) (whole 2)) (f64_add x y) HF S2) as [M1 M2]; [rewrite H, Rabs_pos_eq; lra|].
    - exact M2.
    - rewrite M1, H, S1. reflexivity. }
  assert (P : toR a <= rnd (/ 2 * rnd (toR a + toR b)) <= toR b).
  { assert (2 * toR a <= rnd (toR a + toR b) <= 2 * toR b) by (rewrite <- (D a FA), <- (D b FB); split; apply rnd_mono; lra).
    rewrite <- (I a FA) at 1. rewrite <- (I b FB) at 3. split; apply rnd_mono; lra. }
  destruct (L a b FA FB ltac:(left; now split)) as (m & F1 & R1 & E1). destruct (L b a FB FA ltac:(right; now split)) as (n & F2 & R2 & E2).
  destruct (timedelta_mono a m FA F1) as (ua & us & T1 & T2 & C1); [lra|lra|lra|].
  destruct (timedelta_mono m b F1 FB) as (us' & ub & T3 & T4 & C2); [lra|lra|lra|].
  rewrite T2 in T3. injection T3 as <-. exists ua, us, ub. split; [exact T1|]. split; [exact T4|]. split; [lia|].
  assert (T5 : timedelta_seconds n = Ok us).
  { rewrite timedelta_value in T2 |- * by (first [assumption|lra]). rewrite R2, <- R1. exact T2. }
  unfold mid_time_f. rewrite <- E1, <- E2, T2, T5. split; reflexivity.
Qed.

(** Times written with up to six decimals: if the middle is a whole number of microseconds, it
    is exact; so it always is with up to five decimals.  Otherwise it is one of the two next
    to it. *)
Lemma nearest_near a k : (0 <= k <= 172800000000)%Z -> nearest_double a (IZR k / 1000000) -> 0 <= IZR k <= 172800000000 /\ 0 <= B2R a /\ Rabs (B2R a - IZR k / 1000000) <= / 30000000000.
Proof.
  intros K [F N]. assert (KR : 0 <= IZR k <= 172800000000) by (split; apply IZR_le; lia). split; [exact KR|].
  assert (D : Rabs (B2R a - IZR k / 1000000) <= / 30000000000).
  { destruct (whole_R k ltac:(lia)) as (WA & FA & _). destruct (whole_R 1000000 ltac:(lia)) as (WB & FB & _).
    destruct (div_R (whole k) (whole 1000000) FA) as [D1 D2]; [rewrite WB; lra| |].
    - rewrite WA, WB, Rabs_pos_eq by lra. apply Rle_trans with (bpow radix2 40); [rewrite b40; lra|apply bpow_le; lia].
    - eapply Rle_trans; [apply (N _ D2)|]. rewrite D1, WA, WB. eapply Rle_trans; [apply (small_err _ 172800); lra|].
      assert (U : u = / 9007199254740992) by reflexivity. lra. }
  split; [|exact D]. destruct (Rlt_le_dec (B2R a) 0) as [S|S]; [exfalso|exact S]. apply Rabs_le_inv in D.
  assert (Z : (k = 0 \/ 1 <= k)%Z) by lia. destruct Z as [->|Z]; [|apply IZR_le in Z; lra].
  specialize (N (B754_zero false) eq_refl). change (B2R (B754_zero false)) with 0 in N. replace (0 / 1000000) with 0 in N by lra.
  rewrite !Rminus_0_r, Rabs_R0 in N. pose proof (Rabs_pos_lt (B2R a) ltac:(lra)). lra.
Qed.
Theorem C185_written :
  forall day a b ka kb, (0 <= ka <= 172800000000)%Z -> (0 <= kb <= 172800000000)%Z ->
    nearest_double a (IZR ka / 1000000) -> nearest_double b (IZR kb / 1000000) ->
    (forall m, (ka + kb = 2 * m)%Z -> mid_time_f day a b = add_us day m) /\
    (forall m, (ka + kb = 2 * m + 1)%Z -> mid_time_f day a b = add_us day m \/ mid_time_f day a b = add_us day (m + 1)).
Proof.
  intros day a b ka kb KA KB NA NB. destruct (nearest_near a ka KA NA) as (RA & PA & DA). destruct (nearest_near b kb KB NB) as (RB & PB & DB).
  apply Rabs_le_inv in DA. apply Rabs_le_inv in DB. destruct NA as [FA _]. destruct NB as [FB _].
  destruct (mid_R day a b FA FB ltac:(lra) ltac:(lra)) as (us & y & E & N & Y). apply Rabs_le_inv in Y. rewrite E. split; intros m M.
  - replace us with m; [reflexivity|]. rewrite N. symmetry. apply nearest_close. apply (f_equal IZR) in M. rewrite plus_IZR, mult_IZR in M. apply Rabs_def1; lra.
  - pose proof (nearest_half y) as H. rewrite <- N in H. apply Rabs_le_inv in H. apply (f_equal IZR) in M. rewrite !plus_IZR, mult_IZR in M.
    assert (m - 1 < us)%Z by (apply lt_IZR; rewrite minus_IZR; lra). assert (us < m + 2)%Z by (apply lt_IZR; rewrite plus_IZR; lra).
    assert (us = m \/ us = m + 1)%Z as [->| ->] by lia; [now left|now right].
Qed.
(** ... so that it is what exact arithmetic gives. *)
Theorem C185_exact_partial :
  forall day a b ka kb, (0 <= ka <= 172800000000)%Z -> (0 <= kb <= 172800000000)%Z -> Z.Even (ka + kb) ->
    nearest_double a (IZR ka / 1000000) -> nearest_double b (IZR kb / 1000000) ->
    mid_time_f day a b = mid_time day (Fin (ka # 1000000)) (Fin (kb # 1000000)).
Proof.
  intros day a b ka kb KA KB [m M] NA NB. destruct (C185_written day a b ka kb KA KB NA NB) as [E _]. rewrite (E m M). unfold mid_time. f_equal.
  rewrite (round_comp _ (inject_Z m)); [symmetry; unfold round_half_even; rewrite Qfloor_Z|unfold Qeq, Qmult, Qplus, inject_Z; cbn [Qnum Qden]; lia].
  replace (Qle_bool (1 # 2) (inject_Z m - inject_Z m)) with false; [reflexivity|]. symmetry. apply Bool.not_true_iff_false. rewrite Qle_bool_iff.
  intros H. unfold Qle, Qminus, Qopp, Qplus, inject_Z in H. cbn [Qnum Qden] in H. lia.
Qed.

(** The second written in the boundary file is that of the exact middle, but for a middle half a
    microsecond before a second. *)
Theorem C185_second :
  forall day a b ka kb t, (0 <= ka <= 172800000000)%Z -> (0 <= kb <= 172800000000)%Z ->
    nearest_double a (IZR ka / 1000000) -> nearest_double b (IZR kb / 1000000) ->
    (day mod 1000000 = 0)%Z -> ((ka + kb + 1) mod 2000000 <> 0)%Z ->
    mid_time_f day a b = Ok t -> (t / 1000000 = day / 1000000 + (ka + kb) / 2000000)%Z.
Proof.
  intros day a b ka kb t KA KB NA NB D C H. destruct (C185_written day a b ka kb KA KB NA NB) as [E1 E2].
  assert (AD : forall us, add_us day us = Ok t -> t = (day + us)%Z) by (intros us; unfold add_us; destruct (_ && _)%bool; congruence).
  destruct (Z.Even_or_Odd (ka + kb)) as [[m M]|[m M]].
  - rewrite (E1 m M) in H. apply AD in H. subst t. rewrite M. Z.to_euclidean_division_equations. lia.
  - rewrite M in *. assert (Q : (t = day + m \/ t = day + (m + 1))%Z) by (destruct (E2 m eq_refl) as [E|E]; rewrite E in H; apply AD in H; [now left|now right]).
    Z.to_euclidean_division_equations. lia.
Qed.

(** A missing time is a ValueError, as are infinities of opposite signs; any other infinite time
    is an OverflowError. *)
Theorem C185_rejected :
  forall day a b,
    (is_nan a = true \/ is_nan b = true -> mid_time_f day a b = Err ValueError) /\
    (forall s, a = B754_infinity s -> b = B754_infinity (negb s) -> mid_time_f day a b = Err ValueError) /\
    (forall s, a = B754_infinity s -> b = B754_infinity s \/ is_finite b = true -> mid_time_f day a b = Err OverflowError) /\
    (forall s, b = B754_infinity s -> is_finite a = true -> mid_time_f day a b = Err OverflowError).
Proof.
  assert (IN : forall s, timedelta_seconds (f64_mul (f64_div (whole 1) (whole 2)) (B754_infinity s)) = Err OverflowError) by (intros [|]; vm_compute; reflexivity).
  assert (NA : timedelta_seconds (f64_mul (f64_div (whole 1) (whole 2)) B754_nan) = Err ValueError) by (vm_compute; reflexivity).
  intros day a b. unfold mid_time_f. split; [|split; [|split]].
  - intros H. replace (f64_add b a) with (B754_nan : f64); [rewrite NA; reflexivity|]. destruct a, b, H; try discriminate; reflexivity.
  - intros s -> ->. replace (f64_add _ _) with (B754_nan : f64); [rewrite NA; reflexivity|]. destruct s; reflexivity.
  - intros s -> H. replace (f64_add _ _) with (B754_infinity s : f64); [rewrite IN; reflexivity|].
    destruct H as [->|H]; [destruct s; reflexivity|destruct b; try discriminate H; reflexivity].
  - intros s -> H. replace (f64_add _ _) with (B754_infinity s : f64); [rewrite IN; reflexivity|]. destruct a; try discriminate H; reflexivity.
Qed.

(** With six decimals and an odd sum the middle may differ by a microsecond from that of the two
    doubles: 81142.4877 s and 81966.268325 s. *)
Theorem C185_six_decimals_refuted :
  exists a b, nearest_double a (811424877 / 10000) /\ nearest_double b (81966268325 / 1000000) /\
    mid_time_f 0 a b = Ok 81554378013%Z /\ mid_time 0 (Fin (b2q a)) (Fin (b2q b)) = Ok 81554378012%Z.
Proof.
  exists (f64_div (whole 811424877) (whole 10000)), (f64_div (whole 81966268325) (whole 1000000)).
  split; [apply (div_nearest 811424877 10000); lia|]. split; [apply (div_nearest 81966268325 1000000); lia|]. split; vm_compute; reflexivity.
Qed.

(** 43200.1 s and 43801.3 s of 1 January 2000. *)
Example C185_case :
  nearest_double (f64_div (whole 432001) (whole 10)) (IZR 432001 / IZR 10) /\
  mid_time_f (day_us 730119) (f64_div (whole 432001) (whole 10)) (f64_div (whole 438013) (whole 10)) = Ok (day_us 730119 + 43500700000)%Z.
Proof. split; [apply div_nearest; lia|vm_compute; reflexivity]. Qed.

Print Assumptions C185_middle_partial.
Print Assumptions C185_between.
Print Assumptions C185_written.
Print Assumptions C185_exact_partial.
Print Assumptions C185_second.
Print Assumptions C185_rejected.
Print Assumptions C185_six_decimals_refuted.
