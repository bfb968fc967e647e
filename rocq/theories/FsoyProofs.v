(** Proofs about the binary64 seconds of year and seconds of day. *)
From Coq Require Import String Ascii ZArith QArith Qround Qreals Reals List Bool Lia Lra.
From Flocq Require Import Core Relative BinarySingleNaN.
From Verif Require Import PyBase TimeModel TimeProofs TimeProofs2 TimeProofs3 TimeProofs4 FloatModel FloatProofs FtimeModel FtimeSpec FtimeProofs FtimeProofs2 FradProofs FsoyModel.
Import ListNotations.
Open Scope R_scope.

Local Instance prec53_s : Prec_gt_0 53 := prec53.

(** ** The value of a double as a rational *)
Lemma pow2_IZR e : (0 <= e)%Z -> IZR (2 ^ e) = bpow radix2 e.
Proof. intros H. exact (IZR_Zpower radix2 e H). Qed.
Lemma b2q_R x : fin x = true -> Q2R (b2q x) = toR x.
Proof.
  destruct x as [s|s| |s m e H]; cbn [b2q B2R is_finite]; intros F; try discriminate.
  - unfold Q2R. cbn. lra.
  - unfold F2R. cbn [Defs.Fnum Defs.Fexp]. replace (cond_Zopp s (Z.pos m)) with (if s then Z.neg m else Z.pos m) by (destruct s; reflexivity). destruct (Z.leb_spec 0 e) as [L|L].
    + unfold Q2R. cbn [Qnum Qden inject_Z]. rewrite mult_IZR, pow2_IZR by exact L. rewrite Rinv_1, Rmult_1_r. reflexivity.
    + unfold Q2R. cbn [Qnum Qden]. rewrite Z2Pos.id by (apply Z.pow_pos_nonneg; lia). rewrite pow2_IZR by lia. rewrite <- bpow_opp, Z.opp_involutive. reflexivity.
Qed.
Lemma b2q_eq x q : fin x = true -> Q2R q = toR x -> (b2q x == q)%Q.
Proof. intros F E. apply eqR_Qeq. now rewrite b2q_R. Qed.
Lemma Q2R_inj z : Q2R (inject_Z z) = IZR z.
Proof. unfold Q2R, inject_Z. cbn [Qnum Qden]. lra. Qed.
Lemma Qfloor_R q : Zfloor (Q2R q) = Qfloor q.
Proof.
  apply Zfloor_imp. pose proof (Qfloor_le q) as A. pose proof (Qlt_floor q) as B. apply Qle_Rle in A. apply Qlt_Rlt in B. rewrite Q2R_inj in A, B. lra.
Qed.
Lemma round_comp q r : (q == r)%Q -> round_half_even q = round_half_even r.
Proof.
  intros E. unfold round_half_even. rewrite (Qfloor_comp _ _ E). rewrite E. reflexivity.
Qed.
Lemma fmt_comp q r : (q == r)%Q -> fmt_0f q = fmt_0f r.
Proof. intros E. unfold fmt_0f. rewrite (round_comp _ _ E). rewrite E. reflexivity. Qed.

(** ** Floors *)
Lemma fix_round rd x : round radix2 (FIX_exp 0) rd x = IZR (rd x).
Proof. unfold round, scaled_mantissa, cexp, FIX_exp, F2R. cbn [Defs.Fnum Defs.Fexp Z.opp bpow]. rewrite !Rmult_1_r. reflexivity. Qed.
Lemma floor_R x : toR (f64_floor x) = IZR (Zfloor (toR x)) /\ fin (f64_floor x) = fin x.
Proof. destruct (Bnearbyint_correct 53 1024 emax1024 mode_DN x) as (A & B & _). split; [|exact B]. unfold f64_floor. rewrite A. apply fix_round. Qed.
Lemma ceil_R x : toR (f64_ceil x) = IZR (Zceil (toR x)) /\ fin (f64_ceil x) = fin x.
Proof. destruct (Bnearbyint_correct 53 1024 emax1024 mode_UP x) as (A & B & _). split; [|exact B]. unfold f64_ceil. rewrite A. apply fix_round. Qed.
Lemma trunc_R x : toR (f64_trunc x) = IZR (Ztrunc (toR x)) /\ fin (f64_trunc x) = fin x.
Proof. destruct (Bnearbyint_correct 53 1024 emax1024 mode_ZR x) as (A & B & _). split; [|exact B]. unfold f64_trunc. rewrite A. apply fix_round. Qed.
Lemma b2z_R x : b2z x = Ztrunc (toR x).
Proof. apply eq_IZR. unfold b2z. rewrite (Btrunc_correct 53 1024 emax1024). apply fix_round. Qed.
Lemma b2z_int x z : toR x = IZR z -> b2z x = z.
Proof. intros E. rewrite b2z_R, E. apply Ztrunc_IZR. Qed.

(** A double below a whole number is below it by at least a relative 2^-53. *)
Lemma gap x m : isf x -> 0 <= x -> x < IZR m -> (m <= 2 ^ 53)%Z -> x <= IZR m * (1 - u).
Proof.
  intros F X0 L M. assert (U : u * 9007199254740992 = 1).
  { unfold u. change (bpow radix2 (-53)) with (/ 9007199254740992). lra. }
  assert (UP := u_pos). apply FLT_format_generic in F; [|exact prec53]. destruct F as [[n f] E H G]. unfold F2R in E. cbn [Fnum Fexp] in *.
  assert (MR : IZR m <= 9007199254740992) by (apply IZR_le; lia).
  destruct (Z_le_gt_dec 0 f) as [P|P].
  - assert (X : x = IZR (n * 2 ^ f)) by (rewrite mult_IZR, pow2_IZR by exact P; exact E).
    assert (x <= IZR m - 1). { rewrite X in *. apply lt_IZR in L. rewrite <- minus_IZR. apply IZR_le. lia. }
    assert (u * IZR m <= u * 9007199254740992) by (apply Rmult_le_compat_l; lra). lra.
  - assert (B : 0 < bpow radix2 f) by apply bpow_gt_0.
    assert (PB : bpow radix2 (- f) * bpow radix2 f = 1) by (rewrite <- bpow_plus; replace (- f + f)%Z with 0%Z by lia; reflexivity).
    set (y := (m * 2 ^ (- f))%Z). assert (Y : IZR m = IZR y * bpow radix2 f).
    { unfold y. rewrite mult_IZR, pow2_IZR, Rmult_assoc, PB by lia. lra. }
    assert (NY : (n < y)%Z). { apply lt_IZR. apply Rmult_lt_reg_r with (bpow radix2 f); [exact B|]. rewrite <- E, <- Y. exact L. }
    assert (C : IZR n <= IZR y * (1 - u)).
    { assert (HN : (n <= 2 ^ 53 - 1)%Z) by (change (2 ^ 53)%Z with (radix2 ^ 53)%Z; lia).
      apply IZR_le in HN. rewrite minus_IZR in HN. change (IZR (2 ^ 53)) with 9007199254740992 in HN.
      destruct (Rle_dec (IZR y) 9007199254740992) as [Q|Q].
      - assert (IZR n <= IZR y - 1) by (rewrite <- minus_IZR; apply IZR_le; lia).
        assert (u * IZR y <= u * 9007199254740992) by (apply Rmult_le_compat_l; lra). lra.
      - assert (u < 1) by lra. assert (9007199254740992 * (1 - u) <= IZR y * (1 - u)) by (apply Rmult_le_compat_r; lra). lra. }
    rewrite Y, E. replace (IZR y * bpow radix2 f * (1 - u)) with (IZR y * (1 - u) * bpow radix2 f) by ring. apply Rmult_le_compat_r; lra.
Qed.

(** The floor of the rounded quotient by a whole number is the floor of the exact quotient. *)
Lemma quot_floor x d : isf x -> 0 <= x -> x <= bpow radix2 50 -> (1 <= d <= 86400)%Z ->
  Zfloor (rnd (x / IZR d)) = Zfloor (x / IZR d).
Proof.
  intros F X0 XU D. assert (D1 : 1 <= IZR d) by (apply IZR_le; lia). assert (D2 : IZR d <= 86400) by (apply IZR_le; lia).
  set (z := x / IZR d). assert (Z0 : 0 <= z) by (unfold z; apply Rmult_le_pos; [exact X0|left; apply Rinv_0_lt_compat; lra]).
  assert (ZD : x = z * IZR d) by (unfold z; field; lra).
  assert (ZX : z <= x) by (rewrite ZD; rewrite <- (Rmult_1_r z) at 1; apply Rmult_le_compat_l; lra).
  set (k := Zfloor z). pose proof (Zfloor_lb z) as LB. pose proof (Zfloor_ub z) as UB. fold k in LB, UB.
  assert (K0 : (0 <= k)%Z) by (apply Zfloor_lub; exact Z0).
  assert (KX : IZR k <= bpow radix2 50) by lra. change (bpow radix2 50) with (IZR (2 ^ 50)) in *. apply le_IZR in KX.
  apply Zfloor_imp. split.
  - rewrite <- (rnd_whole k) by lia. apply rnd_mono. exact LB.
  - rewrite plus_IZR. set (K := IZR k + 1) in *.
    assert (G : x <= IZR ((k + 1) * d) * (1 - u)).
    { apply gap; [exact F|exact X0| |].
      - rewrite mult_IZR, plus_IZR. fold K. rewrite ZD. apply Rmult_lt_compat_r; lra.
      - assert (IZR (k * d) <= IZR (2 ^ 50)). { rewrite mult_IZR. apply Rle_trans with x; [|exact XU]. rewrite ZD. apply Rmult_le_compat_r; lra. }
        apply le_IZR in H. lia. }
    rewrite mult_IZR, plus_IZR in G. fold K in G.
    assert (ZG : z <= K * (1 - u)). { apply Rmult_le_reg_r with (IZR d); [lra|]. rewrite <- ZD. lra. }
    pose proof (rnd_bound z) as R. rewrite (Rabs_pos_eq z) in R by exact Z0. apply Rabs_le_inv in R. destruct R as [_ R].
    assert (UP := u_pos). assert (TP := tiny_pos).
    assert (K1 : 1 <= K) by (unfold K; assert (0 <= IZR k) by (apply IZR_le; exact K0); lra).
    assert (T : tiny < u * u). { unfold tiny, u. rewrite <- bpow_plus. apply bpow_lt. lia. }
    assert (z * (1 + u) <= K * (1 - u) * (1 + u)) by (apply Rmult_le_compat_r; lra).
    assert (u * u * 1 <= u * u * K) by (apply Rmult_le_compat_l; [apply Rmult_le_pos; lra|exact K1]).
    replace (K * (1 - u) * (1 + u)) with (K - u * u * K) in H by ring. lra.
Qed.

(** ** One division and the remainder after it *)
Definition fits (x : f64) : Prop := fin x = true /\ 0 <= toR x <= bpow radix2 50.
Lemma step_floor x d : fits x -> (1 <= d <= 86400)%Z ->
  toR (f64_floor (f64_div x (whole d))) = IZR (Zfloor (toR x / IZR d)) /\ fin (f64_floor (f64_div x (whole d))) = true.
Proof.
  intros (F & X0 & XU) D. destruct (whole_R d ltac:(lia)) as (W & WF & _).
  assert (D1 : 1 <= IZR d) by (apply IZR_le; lia).
  assert (I : 0 < / IZR d <= 1). { split; [apply Rinv_0_lt_compat; lra|]. rewrite <- Rinv_1. apply Rinv_le; lra. }
  assert (Q : 0 <= toR x / IZR d <= toR x). { unfold Rdiv. split; [apply Rmult_le_pos; lra|]. rewrite <- (Rmult_1_r (toR x)) at 2. apply Rmult_le_compat_l; lra. }
  destruct (div_R x (whole d) F) as [A B]; [rewrite W; lra|rewrite W, Rabs_pos_eq by lra; apply Rle_trans with (bpow radix2 50); [lra|apply bpow_le; lia]|].
  rewrite W in A. destruct (floor_R (f64_div x (whole d))) as [R1 R2]. rewrite R1, R2, A. split; [|exact B].
  rewrite quot_floor; [reflexivity|apply isf_toR|exact X0|exact XU|exact D].
Qed.
Lemma step_rest x d q k : fits x -> (1 <= d <= 86400)%Z -> toR q = IZR k -> fin q = true -> k = Zfloor (toR x / IZR d) ->
  fits (f64_sub x (f64_mul q (whole d))) /\ toR (f64_sub x (f64_mul q (whole d))) = toR x - IZR k * IZR d.
Proof.
  intros (F & X0 & XU) D E QF K. destruct (whole_R d ltac:(lia)) as (W & WF & _).
  assert (D1 : 1 <= IZR d) by (apply IZR_le; lia).
  pose proof (Zfloor_lb (toR x / IZR d)) as LB. rewrite <- K in LB.
  assert (K0 : (0 <= k)%Z). { rewrite K. apply Zfloor_lub. apply Rmult_le_pos; [exact X0|left; apply Rinv_0_lt_compat; lra]. }
  assert (KR : 0 <= IZR k) by (apply IZR_le; exact K0).
  assert (KD : IZR k * IZR d <= toR x). { apply Rmult_le_compat_r with (r := IZR d) in LB; [|lra]. replace (toR x / IZR d * IZR d) with (toR x) in LB by (field; lra). exact LB. }
  assert (KP : 0 <= IZR k * IZR d) by (apply Rmult_le_pos; lra).
  assert (KZ : (k * d <= 2 ^ 50)%Z). { apply le_IZR. rewrite mult_IZR. change (IZR (2 ^ 50)) with (bpow radix2 50). lra. }
  assert (B50 : bpow radix2 50 <= bpow radix2 1000) by (apply bpow_le; lia).
  destruct (mul_R q (whole d) QF WF) as [M1 M2]; [rewrite E, W, Rabs_pos_eq by exact KP; lra|].
  rewrite E, W, <- mult_IZR, rnd_whole in M1 by nia.
  assert (S : rnd (toR x - IZR (k * d)) = toR x - IZR (k * d)).
  { apply round_generic; auto with typeclass_instances. apply exact_minus; [apply isf_toR| |].
    - rewrite Rabs_pos_eq by exact X0. apply Rle_trans with (bpow radix2 50); [exact XU|apply bpow_le; lia].
    - rewrite mult_IZR. rewrite !Rabs_pos_eq; lra. }
  destruct (sub_R x (f64_mul q (whole d)) F M2) as [S1 S2]; [rewrite M1, mult_IZR, Rabs_pos_eq; lra|].
  rewrite M1, S, mult_IZR in S1. split; [|exact S1]. split; [exact S2|]. rewrite S1. lra.
Qed.

Lemma floor_q x q d : Q2R q = toR x -> (1 <= d)%Z -> Zfloor (toR x / IZR d) = Qfloor (q / inject_Z d).
Proof.
  intros E D. rewrite <- Qfloor_R. f_equal. rewrite Q2R_div, Q2R_inj, E; [reflexivity|].
  intros H. unfold Qeq in H. cbn in H. lia.
Qed.
Lemma rest_q q k d : Q2R (q - inject_Z k * inject_Z d)%Q = Q2R q - IZR k * IZR d.
Proof. rewrite Q2R_minus, Q2R_mult, !Q2R_inj. reflexivity. Qed.

(** ** Seconds of year *)
Theorem year_soy_text_exact yyyy soy q : fits soy -> Q2R q = toR soy -> year_soy_text_f yyyy soy = year_soy_text yyyy q.
Proof.
  intros F E. unfold year_soy_text_f, year_soy_text. cbv zeta.
  change 86400%Q with (inject_Z 86400). change 3600%Q with (inject_Z 3600). change 60%Q with (inject_Z 60).
  destruct (step_floor soy 86400 F ltac:(lia)) as [D1 D2]. set (dddf := f64_floor (f64_div soy (whole 86400))) in *.
  destruct (step_rest soy 86400 dddf _ F ltac:(lia) D1 D2 eq_refl) as [F1 E1].
  rewrite (floor_q soy q 86400 E ltac:(lia)) in D1, E1. set (ddd := Qfloor (q / inject_Z 86400)) in *.
  rewrite <- E, <- rest_q in E1. set (r1 := f64_sub soy (f64_mul dddf (whole 86400))) in *. set (q1 := (q - inject_Z ddd * inject_Z 86400)%Q) in *.
  symmetry in E1.
  destruct (step_floor r1 3600 F1 ltac:(lia)) as [H1 H2]. set (hhf := f64_floor (f64_div r1 (whole 3600))) in *.
  destruct (step_rest r1 3600 hhf _ F1 ltac:(lia) H1 H2 eq_refl) as [F2 E2].
  rewrite (floor_q r1 q1 3600 E1 ltac:(lia)) in H1, E2. set (hh := Qfloor (q1 / inject_Z 3600)) in *.
  rewrite <- E1, <- rest_q in E2. set (r2 := f64_sub r1 (f64_mul hhf (whole 3600))) in *. set (q2 := (q1 - inject_Z hh * inject_Z 3600)%Q) in *.
  symmetry in E2.
  destruct (step_floor r2 60 F2 ltac:(lia)) as [M1 M2]. set (mmf := f64_floor (f64_div r2 (whole 60))) in *.
  destruct (step_rest r2 60 mmf _ F2 ltac:(lia) M1 M2 eq_refl) as [F3 E3].
  rewrite (floor_q r2 q2 60 E2 ltac:(lia)) in M1, E3. set (mm := Qfloor (q2 / inject_Z 60)) in *.
  rewrite <- E2, <- rest_q in E3. set (r3 := f64_sub r2 (f64_mul mmf (whole 60))) in *. set (q3 := (q2 - inject_Z mm * inject_Z 60)%Q) in *.
  symmetry in E3. destruct F3 as (F3 & _).
  assert (A1 : fmt_0f (b2q (f64_add dddf (whole 1))) = fmt_0f (inject_Z (ddd + 1))).
  { assert (B : (0 <= ddd <= 2 ^ 50)%Z).
    { destruct F as (_ & P0 & PU). unfold ddd. rewrite <- (floor_q soy q 86400 E ltac:(lia)). split; apply le_IZR.
      - apply IZR_le. apply Zfloor_lub. lra.
      - eapply Rle_trans; [apply Zfloor_lb|]. change (IZR (2 ^ 50)) with (bpow radix2 50). lra. }
    destruct (whole_R 1 ltac:(lia)) as (W & WF & _).
    destruct (add_R dddf (whole 1) D2 WF) as [X Y].
    - rewrite D1, W, <- plus_IZR, <- abs_IZR. apply Rle_trans with (IZR (2 ^ 53)); [apply IZR_le; lia|]. change (IZR (2 ^ 53)) with (bpow radix2 53). apply bpow_le. lia.
    - rewrite D1, W, <- plus_IZR, rnd_whole in X by lia. apply fmt_comp, b2q_eq; [exact Y|]. rewrite Q2R_inj, X. reflexivity. }
  assert (A2 : fmt_0f (b2q hhf) = fmt_0f (inject_Z hh)) by (apply fmt_comp, b2q_eq; [exact H2|]; rewrite Q2R_inj, H1; reflexivity).
  assert (A3 : fmt_0f (b2q mmf) = fmt_0f (inject_Z mm)) by (apply fmt_comp, b2q_eq; [exact M2|]; rewrite Q2R_inj, M1; reflexivity).
  assert (A4 : fmt_0f (b2q r3) = fmt_0f q3) by (apply fmt_comp, b2q_eq; [exact F3|exact E3]).
  rewrite A1, A2, A3, A4. reflexivity.
Qed.
Lemma year_soy_exact yyyy soy q : fits soy -> Q2R q = toR soy -> year_soy_to_datetime_f yyyy soy = year_soy_to_datetime yyyy q.
Proof. intros F E. unfold year_soy_to_datetime_f, year_soy_to_datetime. now rewrite (year_soy_text_exact _ _ _ F E). Qed.

(** ** Seconds of day *)
Lemma sod_R sod : fits sod -> toR sod <= bpow radix2 40 ->
  exists us, (forall t, add_sod_f t sod = (t1 <- add_us t (Zfloor (toR sod) * 1000000) ;; add_us t1 (us - Zfloor (toR sod) * 1000000))) /\
    (Zfloor (toR sod) * 1000000 <= us)%Z /\
    toR sod * 1000000 - 1000001 * u <= IZR us < toR sod * 1000000 + 1 /\
    (us = Zceil (toR sod * 1000000) \/ us = Zceil (toR sod * 1000000) - 1)%Z /\
    (toR sod = IZR (Zfloor (toR sod)) -> us = (Zfloor (toR sod) * 1000000)%Z).
Proof.
  intros (F & X0 & _) XU. set (x := toR sod) in *. destruct (trunc_R sod) as [T1 T2]. fold x in T1. rewrite (Ztrunc_floor x X0) in T1.
  set (k := Zfloor x) in *. pose proof (Zfloor_lb x) as LB. pose proof (Zfloor_ub x) as UB. fold k in LB, UB.
  assert (K0 : (0 <= k)%Z) by (apply Zfloor_lub; exact X0). assert (KR : 0 <= IZR k) by (apply IZR_le; exact K0).
  assert (B : bpow radix2 40 <= bpow radix2 52 /\ bpow radix2 52 <= bpow radix2 1000) by (split; apply bpow_le; lia).
  assert (S : rnd (x - IZR k) = x - IZR k).
  { apply round_generic; auto with typeclass_instances. apply exact_minus; [apply isf_toR| |]; rewrite !Rabs_pos_eq; fold x; lra. }
  destruct (sub_R sod (f64_trunc sod) F ltac:(now rewrite T2)) as [S1 S2]; [rewrite T1; fold x; rewrite Rabs_pos_eq; lra|].
  rewrite T1 in S1. fold x in S1. rewrite S in S1. set (fr := f64_sub sod (f64_trunc sod)) in *.
  assert (UP := u_pos). assert (TP := tiny_pos).
  assert (US : u <= / 9007199254740992) by (unfold u; right; reflexivity).
  assert (TU : tiny <= u). { unfold tiny, u. apply bpow_le. lia. }
  assert (Z0 : toR (B754_zero false : f64) = 0) by reflexivity.
  destruct (f64_lt (B754_zero false) fr) eqn:L0.
  - pose proof L0 as L. apply lt_true in L; [|reflexivity|exact S2]. rewrite Z0, S1 in L.
    destruct (whole_R 1000000 ltac:(lia)) as (W & WF & _).
    destruct (mul_R fr (whole 1000000) S2 WF) as [M1 M2].
    { rewrite W, S1, Rabs_pos_eq by lra. apply Rle_trans with (bpow radix2 40); [rewrite b40; lra|apply bpow_le; lia]. }
    rewrite W, S1 in M1. destruct (ceil_R (f64_mul fr (whole 1000000))) as [C1 C2]. rewrite M1 in C1.
    pose proof (b2z_int _ _ C1) as C3. set (y := (x - IZR k) * 1000000) in *. set (c := Zceil (rnd y)) in *.
    exists (k * 1000000 + c)%Z. replace (k * 1000000 + c - k * 1000000)%Z with c by lia. split; [intros t; unfold add_sod_f; fold fr; cbv zeta; fold k; rewrite (b2z_int _ _ T1), L0, C3; reflexivity|].
    assert (Y0 : 0 <= y) by (unfold y; lra). assert (Y1 : y <= 1000000) by (unfold y; lra).
    pose proof (rnd_bound y) as R. rewrite (Rabs_pos_eq y) in R by exact Y0. apply Rabs_le_inv in R.
    assert (u * y <= u * 1000000) by (apply Rmult_le_compat_l; lra).
    pose proof (Zceil_ub (rnd y)) as CU. fold c in CU.
    assert (CP : 0 <= rnd y). { rewrite <- rnd_zero. now apply rnd_mono. }
    assert (C0 : (0 <= c)%Z) by (apply le_IZR; lra).
    set (e := Zceil y). pose proof (Zceil_ub y) as EU. pose proof (Zceil_lb y) as EL. fold e in EU, EL.
    assert (E0 : (0 <= e <= 1000000)%Z). { split; [apply le_IZR; lra|]. apply Zceil_glb. exact Y1. }
    assert (CE : (c <= e)%Z). { apply Zceil_glb. rewrite <- (rnd_whole e) by lia. apply rnd_mono. exact EU. }
    assert (CE2 : IZR c <= IZR e) by (apply IZR_le; exact CE).
    assert (EX : Zceil (x * 1000000) = (k * 1000000 + e)%Z).
    { apply Zceil_imp. rewrite minus_IZR, plus_IZR, mult_IZR. unfold y in EL, EU. lra. }
    split; [lia|]. split; [rewrite plus_IZR, mult_IZR; unfold y in *; lra|]. split.
    + rewrite EX. assert (IZR e - 2 < IZR c) by lra. rewrite <- minus_IZR in H0. apply lt_IZR in H0. lia.
    + intros H1. exfalso. lra.
  - assert (L' : x = IZR k).
    { destruct (Rle_lt_dec (x - IZR k) 0) as [Q|Q]; [lra|]. exfalso. rewrite (proj2 (lt_true (B754_zero false) fr eq_refl S2)) in L0; [discriminate|]. rewrite Z0, S1. exact Q. }
    exists (k * 1000000)%Z. replace (k * 1000000 - k * 1000000)%Z with 0%Z by lia. split.
    + intros t. unfold add_sod_f. fold fr. cbv zeta. fold k. rewrite (b2z_int _ _ T1), L0. unfold bind. unfold add_us at 1 2. destruct ((0 <=? t + k * 1000000)%Z && (t + k * 1000000 <? max_us)%Z) eqn:G; [|reflexivity].
      unfold add_us. rewrite Z.add_0_r, G. reflexivity.
    + split; [lia|]. rewrite mult_IZR, <- L'. split; [lra|]. split; [|intros _; reflexivity].
      left. rewrite L', <- mult_IZR. symmetry. apply Zceil_IZR.
Qed.
Lemma sod_add sod : fits sod -> toR sod <= bpow radix2 40 ->
  exists us, (forall t, (0 <= t)%Z -> add_sod_f t sod = add_us t us) /\ (0 <= us)%Z /\
    toR sod * 1000000 - 1000001 * u <= IZR us < toR sod * 1000000 + 1 /\
    (us = Zceil (toR sod * 1000000) \/ us = Zceil (toR sod * 1000000) - 1)%Z /\
    (toR sod = IZR (Zfloor (toR sod)) -> us = (Zfloor (toR sod) * 1000000)%Z).
Proof.
  intros F XU. destruct (sod_R sod F XU) as (us & E & L & R). exists us. split; [|split; [|exact R]].
  - intros t T. rewrite E. set (k := (Zfloor (toR sod) * 1000000)%Z) in *.
    assert (K0 : (0 <= k)%Z). { unfold k. assert (0 <= Zfloor (toR sod))%Z; [|lia]. apply Zfloor_lub. apply F. }
    unfold bind, add_us. destruct (Z.ltb_spec (t + k) max_us) as [P|P].
    + rewrite (proj2 (Z.leb_le 0 (t + k))) by lia. cbn [andb]. replace (t + k + (us - k))%Z with (t + us)%Z by lia. reflexivity.
    + rewrite andb_false_r. rewrite (proj2 (Z.ltb_ge (t + us) max_us)) by lia. rewrite andb_false_r. reflexivity.
  - assert (0 <= Zfloor (toR sod))%Z; [|lia]. apply Zfloor_lub. apply F.
Qed.

(** ** convert_time *)
Open Scope Z_scope.
Lemma days_before_nonneg y : 1 <= y -> 0 <= days_before_year y.
Proof.
  intros H. unfold days_before_year. assert (0 <= (y - 1) / 4) by (apply Z.div_pos; lia). assert (0 <= (y - 1) / 400) by (apply Z.div_pos; lia).
  assert ((y - 1) / 100 <= y - 1) by (apply Z.div_le_upper_bound; lia). lia.
Qed.
Lemma days_month_nonneg y m : 0 <= days_before_month y m.
Proof.
  unfold days_before_month. assert (G : forall l a, 0 <= a -> 0 <= fold_left (fun a k => if k <? m then a + month_len y k else a) l a).
  { induction l as [|k l IH]; cbn [fold_left]; intros a A; [exact A|]. apply IH. destruct (k <? m); [|exact A].
    unfold month_len. destruct (k =? 2); [destruct (is_leap y)|destruct ((k =? 4) || (k =? 6) || (k =? 9) || (k =? 11))%bool]; lia. }
  apply G. lia.
Qed.
Lemma sp_time_nonneg r t : sp_time r = Ok t -> 0 <= t.
Proof.
  destruct r as [y m d H M Sc f|w|]; cbn [sp_time]; try discriminate. unfold mk_datetime.
  match goal with |- (if ?b then _ else _) = _ -> _ => destruct b eqn:E end; [|discriminate].
  repeat (apply andb_prop in E; destruct E as [E ?]). repeat match goal with H : (_ <=? _) = true |- _ => apply Z.leb_le in H end.
  intros [= <-]. unfold ordinal, us_day. pose proof (days_before_nonneg y ltac:(lia)). pose proof (days_month_nonneg y m). nia.
Qed.
Lemma add_sod_us t us : 0 <= t -> 0 <= us -> add_sod t (Some (us # 1000000)) = add_us t us.
Proof.
  intros T U. assert (C : Qceiling ((us # 1000000) * 1000000) = us).
  { rewrite (Qceiling_comp _ (inject_Z us)) by (unfold Qeq; cbn; lia). apply Qceiling_Z. }
  assert (Q0 : (0 <= us # 1000000)%Q) by (unfold Qle; cbn; lia).
  unfold add_us. destruct (Z.ltb_spec (t + us) max_us) as [L|L].
  - rewrite add_sod_spec by (try rewrite C; assumption). rewrite C, (proj2 (Z.leb_le 0 _)) by lia. reflexivity.
  - rewrite andb_false_r. destruct (Z_lt_ge_dec t max_us) as [B|B]; [apply add_sod_overflow; [lia|exact Q0|now rewrite C]|].
    unfold add_sod. rewrite (proj2 (Qle_bool_iff 0 _) Q0). set (k := Qfloor (us # 1000000)).
    assert (0 <= k). { unfold k. change 0 with (Qfloor 0). now apply Qfloor_resp_le. }
    unfold add_us at 1. rewrite (proj2 (Z.ltb_ge (t + k * 1000000) max_us)) by lia. rewrite andb_false_r. reflexivity.
Qed.

Lemma convert_soy_exact y soy q yyddd sod sod' date tod fmt : fits soy -> Q2R q = toR soy ->
  convert_time_f (Some y) (Some soy) yyddd sod date tod fmt = convert_time (Some y) (Some q) yyddd sod' date tod fmt.
Proof. intros F E. unfold convert_time_f, convert_time. rewrite (year_soy_text_exact _ _ _ F E). reflexivity. Qed.
Lemma convert_sod_us sod us : (forall t, 0 <= t -> add_sod_f t sod = add_us t us) -> 0 <= us ->
  forall year soy soyq yyddd date tod fmt, year = None \/ (soy = None /\ soyq = None) ->
  convert_time_f year soy yyddd (Some sod) date tod fmt = convert_time year soyq yyddd (Some (us # 1000000)) date tod fmt.
Proof.
  intros A U year soy soyq yyddd date tod fmt Y.
  assert (G : forall r, (t <- sp_time r ;; add_sod_f t sod) = (t <- sp_time r ;; add_sod t (Some (us # 1000000)))).
  { intros r. destruct (sp_time r) as [t|e] eqn:E; [|reflexivity]. unfold bind. pose proof (sp_time_nonneg r t E). rewrite A, add_sod_us by assumption. reflexivity. }
  assert (E1 : convert_time_f year soy yyddd (Some sod) date tod fmt = convert_time_f None None yyddd (Some sod) date tod fmt) by (destruct Y as [->|[-> ->]]; [|destruct year]; reflexivity).
  assert (E2 : convert_time year soyq yyddd (Some (us # 1000000)) date tod fmt = convert_time None None yyddd (Some (us # 1000000)) date tod fmt) by (destruct Y as [->|[-> ->]]; [|destruct year]; reflexivity).
  rewrite E1, E2. clear E1 E2 Y. unfold convert_time_f, convert_time. cbv zeta.
  destruct yyddd as [s|].
  - destruct (yyddd_strptime s) as [r|e]; [|reflexivity].
    destruct r as [y m d h mi sc f|w|]; [|reflexivity|reflexivity]. cbn beta iota delta [bind].
    destruct tod as [td|]; match goal with |- match strptime ?a ?b with _ => _ end = _ => destruct (strptime a b) eqn:E end; cbn beta iota delta [bind]; try rewrite E; try reflexivity; first [exact (G (SpOk _ _ _ _ _ _ _)) | exact (G SpErr)].
  - destruct tod as [td|]; [destruct date as [dd|]; [|reflexivity]|];
      match goal with |- match strptime ?a ?b with _ => _ end = _ => destruct (strptime a b) eqn:E end; cbn beta iota delta [bind]; try rewrite E; try reflexivity; first [exact (G (SpOk _ _ _ _ _ _ _)) | exact (G SpErr)].
Qed.
Lemma convert_no_sod year soy soyq yyddd date tod fmt : year = None \/ (soy = None /\ soyq = None) ->
  convert_time_f year soy yyddd None date tod fmt = convert_time year soyq yyddd None date tod fmt.
Proof. intros [->|[-> ->]]; [|destruct year]; reflexivity. Qed.

(** ** Negative seconds of year *)
Lemma soy_text_bad_f y soy z : 1000 <= y <= 9999 -> (z <= 0)%Z ->
  fmt_0f (b2q (f64_add (f64_floor (f64_div soy (whole 86400))) (whole 1))) = fmt_0f (inject_Z z) ->
  strptime (year_soy_text_f y soy) year_soy_fmt = SpErr.
Proof.
  intros Hy Z0 E. unfold year_soy_text_f. cbv zeta. rewrite E, fmt_d_nonneg by lia. cbn [app].
  rewrite strptime_soy_bad_day; [reflexivity|exact Hy|]. intros t. destruct (Z.eq_dec z 0) as [->|N].
  - rewrite (fmt_0f_nonneg 0) by (reflexivity || lia). cbn [app]. rewrite matches_lit. reflexivity.
  - rewrite (fmt_0f_neg z) by (reflexivity || lia). cbn [app]. reflexivity.
Qed.
Lemma year_soy_negative y soy : 1000 <= y <= 9999 -> fin soy = true -> (- bpow radix2 50 <= toR soy <= - bpow radix2 (-1000))%R ->
  strptime (year_soy_text_f y soy) year_soy_fmt = SpErr.
Proof.
  intros Hy F [L U]. destruct (whole_R 86400 ltac:(lia)) as (W & WF & _). destruct (whole_R 1 ltac:(lia)) as (W1 & WF1 & _).
  assert (P : (0 < bpow radix2 (-1000))%R) by apply bpow_gt_0.
  assert (Q : (- bpow radix2 50 <= toR soy / 86400 <= - bpow radix2 (-1020))%R).
  { split; [lra|]. assert (bpow radix2 (-1000) = bpow radix2 (-1020) * 1048576)%R by (change 1048576%R with (bpow radix2 20); rewrite <- bpow_plus; reflexivity).
    pose proof (bpow_gt_0 radix2 (-1020)). lra. }
  destruct (div_R soy (whole 86400) F) as [A B]; [rewrite W; lra|rewrite W; apply Rle_trans with (bpow radix2 50); [pose proof (bpow_gt_0 radix2 (-1020)); rewrite Rabs_left1; lra|apply bpow_le; lia]|].
  rewrite W in A. destruct (floor_R (f64_div soy (whole 86400))) as [R1 R2]. rewrite A in R1. rewrite B in R2. set (k := Zfloor (rnd (toR soy / 86400))) in *.
  assert (I1 : (rnd (toR soy / 86400) <= - bpow radix2 (-1020))%R).
  { assert (G : isf (- bpow radix2 (-1020))). { apply generic_format_opp, generic_format_bpow. unfold FLT_exp. lia. }
    rewrite <- (round_generic radix2 fexp64 ZnearestE _ G). apply rnd_mono. lra. }
  assert (I2 : (IZR (- 2 ^ 50) <= rnd (toR soy / 86400))%R).
  { rewrite <- (rnd_whole (- 2 ^ 50)) by lia. apply rnd_mono. rewrite opp_IZR. change (IZR (2 ^ 50)) with (bpow radix2 50). lra. }
  assert (K : - 2 ^ 50 <= k < 0).
  { split; [apply Zfloor_lub; exact I2|]. apply lt_IZR. eapply Rle_lt_trans; [apply Zfloor_lb|]. pose proof (bpow_gt_0 radix2 (-1020)). lra. }
  destruct (add_R (f64_floor (f64_div soy (whole 86400))) (whole 1) R2 WF1) as [X Y].
  - rewrite R1, W1, <- plus_IZR, <- abs_IZR. apply Rle_trans with (IZR (2 ^ 53)); [apply IZR_le; lia|]. change (IZR (2 ^ 53)) with (bpow radix2 53). apply bpow_le. lia.
  - rewrite R1, W1, <- plus_IZR, rnd_whole in X by lia. apply (soy_text_bad_f y soy (k + 1) Hy); [lia|].
    apply fmt_comp, b2q_eq; [exact Y|]. rewrite Q2R_inj, X. reflexivity.
Qed.
