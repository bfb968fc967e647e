(** Proofs about the binary64 conversions between hours and radians. *)
From Coq Require Import ZArith Reals Bool Lia Lra.
From Flocq Require Import Core Relative BinarySingleNaN.
From Verif Require Import PyBase FloatModel FloatProofs FtimeModel FtimeSpec FtimeProofs FtimeProofs2 PiProofs FradModel.
Open Scope R_scope.

Local Instance prec53_r : Prec_gt_0 53 := prec53.

(** ** The constants *)
Definition p := 884279719003555 / 281474976710656.
Lemma pi_R : toR pi_f = p /\ fin pi_f = true.
Proof.
  split; [|reflexivity]. unfold pi_f, B2R, F2R, Defs.Fnum, Defs.Fexp, p. cbn [cond_Zopp bpow Z.opp].
  change (Z.pow_pos radix2 51) with 2251799813685248%Z. lra.
Qed.
Lemma p_pi : p + / 8200000000000000 < PI < p + / 8100000000000000.
Proof. exact pi_bounds. Qed.
Lemma p_val : 3.14159 < p < 3.1416.
Proof. unfold p. lra. Qed.
Lemma pi_near : p < PI /\ PI - p <= 4 / 10 * u * p /\ PI - p <= 4 / 10 * u * PI.
Proof. pose proof p_pi. pose proof p_val. rewrite u_val. lra. Qed.

Definition turn_v : f64 := @B754_finite 53 1024 false 7074237752028440 (-50) eq_refl.
Lemma turn_eq : turn_f = turn_v.
Proof. apply B2SF_inj. vm_compute. reflexivity. Qed.
Lemma turn_R : toR turn_f = 2 * p /\ fin turn_f = true.
Proof.
  rewrite turn_eq. split; [|reflexivity]. unfold turn_v, B2R, F2R, Defs.Fnum, Defs.Fexp, p. cbn [cond_Zopp bpow Z.opp].
  change (Z.pow_pos radix2 50) with 1125899906842624%Z. lra.
Qed.
Lemma base_eq : f64_sub turn_f turn_f = B754_zero false.
Proof. apply B2SF_inj. vm_compute. reflexivity. Qed.

Lemma fin12 : toR (whole 12) = 12 /\ fin (whole 12) = true.
Proof. destruct (whole_R 12 ltac:(lia)) as (A & B & _). auto. Qed.

(** ** Two roundings *)
Lemma two_steps a b : 1 <= b -> Rabs (rnd (rnd a / b) - a / b) <= 21 / 10 * u * Rabs (a / b) + 3 * tiny.
Proof.
  intros B. pose proof (rnd_bound a) as R1. pose proof (rnd_bound (rnd a / b)) as R2. pose proof u_pos as U. pose proof tiny_pos as T.
  assert (I : 0 < / b <= 1) by (split; [apply Rinv_0_lt_compat; lra|rewrite <- Rinv_1; apply Rinv_le_contravar; lra]).
  assert (A : Rabs (a / b) = Rabs a * / b) by (unfold Rdiv; rewrite Rabs_mult, (Rabs_pos_eq (/ b)); lra).
  assert (E : Rabs (rnd a / b - a / b) <= u * Rabs (a / b) + tiny).
  { replace (rnd a / b - a / b) with ((rnd a - a) * / b) by (field; lra). rewrite Rabs_mult, (Rabs_pos_eq (/ b)) by lra.
    rewrite A. apply Rle_trans with ((u * Rabs a + tiny) * / b); [apply Rmult_le_compat_r; lra|].
    rewrite Rmult_plus_distr_r. apply Rplus_le_compat; [lra|]. rewrite <- (Rmult_1_r tiny) at 2. apply Rmult_le_compat_l; lra. }
  assert (S : Rabs (rnd a / b) <= Rabs (a / b) + (u * Rabs (a / b) + tiny)).
  { replace (rnd a / b) with (a / b + (rnd a / b - a / b)) by ring. eapply Rle_trans; [apply Rabs_triang|]. lra. }
  replace (rnd (rnd a / b) - a / b) with ((rnd (rnd a / b) - rnd a / b) + (rnd a / b - a / b)) by ring.
  eapply Rle_trans; [apply Rabs_triang|]. set (X := Rabs (a / b)) in *. assert (P : 0 <= X) by apply Rabs_pos.
  assert (Q : u * Rabs (rnd a / b) <= u * (X + (u * X + tiny))) by (apply Rmult_le_compat_l; lra).
  assert (W : u * (X + (u * X + tiny)) <= 11 / 10 * u * X + tiny).
  { assert (u * (u * X) <= 1 / 10 * (u * X)) by (apply Rmult_le_compat_r; [apply Rmult_le_pos; lra|rewrite u_val; lra]).
    assert (u * tiny <= 1 * tiny) by (apply Rmult_le_compat_r; [lra|rewrite u_val; lra]). lra. }
  lra.
Qed.

(** ** The quotients *)
Lemma rnd_bpow x e : (-1000 <= e <= 1000)%Z -> Rabs x <= bpow radix2 e -> Rabs (rnd x) <= bpow radix2 e.
Proof. intros E H. apply abs_round_le_generic; auto with typeclass_instances. apply generic_format_bpow. unfold FLT_exp. lia. Qed.

Lemma hr_quot x : fin x = true -> Rabs (toR x) <= bpow radix2 40 ->
  let q := f64_div (f64_mul x pi_f) (whole 12) in
  toR q = rnd (rnd (toR x * p) / 12) /\ fin q = true /\ Rabs (toR q) <= bpow radix2 42.
Proof.
  intros F B q. destruct pi_R as [PE PF]. destruct fin12 as [TE TF]. pose proof p_val as PV.
  assert (A : Rabs (toR x * p) <= bpow radix2 42).
  { rewrite Rabs_mult, (Rabs_pos_eq p) by lra. rewrite (pow_split 42 40 2) by reflexivity. change (bpow radix2 2) with 4.
    apply Rmult_le_compat; [apply Rabs_pos|lra|exact B|lra]. }
  destruct (mul_R x pi_f F PF) as [M1 M2]; [rewrite PE; eapply Rle_trans; [exact A|apply bpow_le; lia]|]. rewrite PE in M1.
  pose proof (rnd_bpow _ 42 ltac:(lia) A) as A2.
  assert (A3 : Rabs (rnd (toR x * p) / 12) <= bpow radix2 42).
  { unfold Rdiv. rewrite Rabs_mult, (Rabs_pos_eq (/ 12)) by lra. pose proof (Rabs_pos (rnd (toR x * p))). lra. }
  destruct (div_R (f64_mul x pi_f) (whole 12) M2) as [D1 D2]; [rewrite TE; lra|rewrite TE, M1; eapply Rle_trans; [exact A3|apply bpow_le; lia]|].
  rewrite TE, M1 in D1. split; [exact D1|]. split; [exact D2|]. unfold q. rewrite D1. now apply rnd_bpow.
Qed.

Lemma rad_quot w : fin w = true -> Rabs (toR w) <= bpow radix2 40 ->
  let q := f64_div (f64_mul w (whole 12)) pi_f in
  toR q = rnd (rnd (toR w * 12) / p) /\ fin q = true /\ Rabs (toR q) <= bpow radix2 44.
Proof.
  intros F B q. destruct pi_R as [PE PF]. destruct fin12 as [TE TF]. pose proof p_val as PV.
  assert (A : Rabs (toR w * 12) <= bpow radix2 44).
  { rewrite Rabs_mult, (Rabs_pos_eq 12) by lra. rewrite (pow_split 44 40 4) by reflexivity. change (bpow radix2 4) with 16.
    pose proof (Rabs_pos (toR w)). lra. }
  destruct (mul_R w (whole 12) F TF) as [M1 M2]; [rewrite TE; eapply Rle_trans; [exact A|apply bpow_le; lia]|]. rewrite TE in M1.
  pose proof (rnd_bpow _ 44 ltac:(lia) A) as A2.
  assert (A3 : Rabs (rnd (toR w * 12) / p) <= bpow radix2 44).
  { unfold Rdiv. assert (I : 0 < / p <= 1) by (split; [apply Rinv_0_lt_compat; lra|rewrite <- Rinv_1; apply Rinv_le_contravar; lra]).
    rewrite Rabs_mult, (Rabs_pos_eq (/ p)) by lra. pose proof (Rabs_pos (rnd (toR w * 12))). 
    apply Rle_trans with (Rabs (rnd (toR w * 12)) * 1); [apply Rmult_le_compat_l; lra|lra]. }
  destruct (div_R (f64_mul w (whole 12)) pi_f M2) as [D1 D2]; [rewrite PE; lra|rewrite PE, M1; eapply Rle_trans; [exact A3|apply bpow_le; lia]|].
  rewrite PE, M1 in D1. split; [exact D1|]. split; [exact D2|]. unfold q. rewrite D1. now apply rnd_bpow.
Qed.

(** ** Doubles below 24 hours and below a turn *)
Lemma below_gen x m e : isf x -> (-1074 <= e)%Z -> bpow radix2 (52 + e) <= x < IZR m * bpow radix2 e -> x <= (IZR m - 1) * bpow radix2 e.
Proof.
  intros F He2 [L U]. apply FLT_format_generic in F; [|exact prec53]. destruct F as [[n f] E H G]. unfold F2R in E. cbn [Fnum Fexp] in *.
  assert (P : 0 < bpow radix2 e) by apply bpow_gt_0.
  assert (Ef : (e <= f)%Z).
  { destruct (Z_lt_le_dec f e) as [Q|Q]; [exfalso|exact Q].
    assert (X : x < bpow radix2 (53 + f)).
    { rewrite E, bpow_plus. apply Rmult_lt_compat_r; [apply bpow_gt_0|]. change (bpow radix2 53) with (IZR (radix2 ^ 53)). apply IZR_lt. lia. }
    assert (bpow radix2 (53 + f) <= bpow radix2 (52 + e)) by (apply bpow_le; lia). lra. }
  set (N := (n * 2 ^ (f - e))%Z). assert (EN : x = IZR N * bpow radix2 e).
  { unfold N. rewrite mult_IZR. change (2 ^ (f - e))%Z with (radix2 ^ (f - e))%Z. rewrite (IZR_Zpower radix2) by lia. rewrite E, Rmult_assoc, <- bpow_plus. do 2 f_equal. lia. }
  rewrite EN in *. apply Rmult_lt_reg_r in U; [|exact P]. apply lt_IZR in U.
  apply Rmult_le_compat_r; [now left|]. rewrite <- minus_IZR. apply IZR_le. lia.
Qed.

Lemma isf_toR x : isf (toR x).
Proof. exact (generic_format_B2R 53 1024 x). Qed.

Definition pred_turn : f64 := @B754_finite 53 1024 false 7074237752028439 (-50) eq_refl.
Lemma pred_turn_R : toR pred_turn = 7074237752028439 * / 1125899906842624.
Proof. unfold pred_turn, B2R, F2R, Defs.Fnum, Defs.Fexp. cbn [cond_Zopp bpow Z.opp]. reflexivity. Qed.

Lemma le_pred24 x : toR x < 24 -> toR x <= toR pred24.
Proof.
  intros H. rewrite toR_pred24. destruct (Rlt_le_dec (toR x) 16) as [L|L]; [lra|].
  pose proof (below (toR x) 24 (-48) (isf_toR x) ltac:(lia) ltac:(lia)) as G. change (bpow radix2 (52 + -48)) with 16 in G.
  change (bpow radix2 (-48)) with (/ 281474976710656) in G. apply G. lra.
Qed.
Lemma le_pred_turn w : toR w < 2 * p -> toR w <= toR pred_turn.
Proof.
  intros H. rewrite pred_turn_R. destruct (Rlt_le_dec (toR w) 4) as [L|L]; [lra|].
  pose proof (below_gen (toR w) 7074237752028440 (-50) (isf_toR w) ltac:(lia)) as G. change (bpow radix2 (52 + -50)) with 4 in G.
  change (bpow radix2 (-50)) with (/ 1125899906842624) in G. unfold p in H. lra.
Qed.

Lemma b40_big : 1000 <= bpow radix2 40. Proof. rewrite b40. lra. Qed.

Lemma rnd_zero : rnd 0 = 0. Proof. exact (rnd_whole 0 ltac:(lia)). Qed.

(** A time of day becomes an angle short of a whole turn, before any wrapping. *)
Lemma hr_quot_in x : fin x = true -> 0 <= toR x < 24 ->
  0 <= toR (f64_div (f64_mul x pi_f) (whole 12)) < 2 * p.
Proof.
  intros F [L U]. pose proof b40_big as BB. pose proof p_val as PV.
  destruct (hr_quot x F) as (Q1 & Q2 & _); [rewrite Rabs_pos_eq; lra|]. rewrite Q1. split.
  - rewrite <- rnd_zero at 1. apply rnd_mono. apply Rmult_le_pos; [|lra]. rewrite <- rnd_zero at 1. apply rnd_mono. apply Rmult_le_pos; lra.
  - pose proof (le_pred24 x U) as M.
    destruct (hr_quot pred24 eq_refl) as (R1 & R2 & _); [rewrite toR_pred24, Rabs_pos_eq; lra|].
    apply Rle_lt_trans with (toR (f64_div (f64_mul pred24 pi_f) (whole 12))).
    + rewrite R1. apply rnd_mono. apply Rmult_le_compat_r; [lra|]. apply rnd_mono. apply Rmult_le_compat_r; [lra|exact M].
    + destruct turn_R as [TE TF]. rewrite <- TE. apply lt_true; [exact R2|exact TF|]. vm_compute. reflexivity.
Qed.
Lemma rad_quot_in w : fin w = true -> 0 <= toR w < 2 * p ->
  0 <= toR (f64_div (f64_mul w (whole 12)) pi_f) < 24.
Proof.
  intros F [L U]. pose proof b40_big as BB. pose proof p_val as PV.
  assert (I : 0 < / p) by (apply Rinv_0_lt_compat; lra).
  destruct (rad_quot w F) as (Q1 & Q2 & _); [rewrite Rabs_pos_eq; lra|]. rewrite Q1. split.
  - rewrite <- rnd_zero at 1. apply rnd_mono. apply Rmult_le_pos; [|lra]. rewrite <- rnd_zero at 1. apply rnd_mono. apply Rmult_le_pos; lra.
  - pose proof (le_pred_turn w U) as M.
    destruct (rad_quot pred_turn eq_refl) as (R1 & R2 & _); [rewrite pred_turn_R, Rabs_pos_eq; lra|].
    apply Rle_lt_trans with (toR (f64_div (f64_mul pred_turn (whole 12)) pi_f)).
    + rewrite R1. apply rnd_mono. apply Rmult_le_compat_r; [lra|]. apply rnd_mono. apply Rmult_le_compat_r; [lra|exact M].
    + destruct (whole_R 24 ltac:(lia)) as (TE & TF & _). rewrite <- TE. apply lt_true; [exact R2|exact TF|]. vm_compute. reflexivity.
Qed.

(** ** The angles and hours returned *)
Lemma hr2rad_any x : fin x = true -> Rabs (toR x) <= bpow radix2 40 ->
  exists w, returns (fun n => hr2rad_f n x) w /\ fin w = true /\ 0 <= toR w <= 2 * p /\ (0 <= toR x -> toR w < 2 * p) /\
    (0 <= toR x < 24 -> w = f64_div (f64_mul x pi_f) (whole 12)).
Proof.
  intros F B. destruct (hr_quot x F B) as (Q1 & Q2 & Q3). destruct turn_R as [TE TF]. pose proof p_val as PV.
  assert (ZR : toR (B754_zero false : f64) = 0) by reflexivity.
  assert (B50 : 1000 <= bpow radix2 50) by (rewrite b50; lra).
  destruct (fix_range_f_spec (B754_zero false) turn_f turn_f eq_refl TF TF) with (rng := @None f64) (v := f64_div (f64_mul x pi_f) (whole 12)) as (w & N & W & FW & RW & UW & SW).
  - rewrite TE. apply Rle_trans with (bpow radix2 0); [apply bpow_le; lia|]. change (bpow radix2 0) with 1. lra.
  - rewrite TE. apply Rle_trans with (bpow radix2 3); [change (bpow radix2 3) with 8; lra|apply bpow_le; lia].
  - rewrite ZR. lra.
  - rewrite ZR, Rabs_R0, TE. apply Rmult_le_pos; lra.
  - rewrite TE, Rabs_pos_eq by lra. rewrite <- (Rmult_1_l (2 * p)) at 1. apply Rmult_le_compat_r; lra.
  - apply B2SF_inj. vm_compute. reflexivity.
  - exact Q2.
  - eapply Rle_trans; [exact Q3|]. apply Rle_trans with (bpow radix2 50 * 1); [rewrite Rmult_1_r; apply bpow_le; lia|]. apply Rmult_le_compat_l; lra.
  - rewrite TE, ZR in *. exists w. split; [exists N; intros n Hn; unfold hr2rad_f, hr2rad_to; rewrite base_eq; now apply W|].
    split; [exact FW|]. split; [exact RW|]. split.
    + intros P. apply UW. rewrite Q1. rewrite <- rnd_zero at 1. apply rnd_mono. apply Rmult_le_pos; [|lra].
      rewrite <- rnd_zero at 1. apply rnd_mono. apply Rmult_le_pos; lra.
    + intros P. apply SW. now apply hr_quot_in.
Qed.

Lemma hr_err x : Rabs (rnd (rnd (x * p) / 12) - x * p / 12) <= 21 / 10 * u * Rabs (x * p / 12) + 3 * tiny.
Proof. apply two_steps. lra. Qed.
Lemma hr_err_pi x : Rabs (rnd (rnd (x * p) / 12) - PI / 12 * x) <= 5 / 2 * u * (PI / 12 * Rabs x) + 3 * tiny.
Proof.
  pose proof (hr_err x) as E. destruct pi_near as (P1 & P2 & P3). pose proof p_val as PV. pose proof u_pos as U. pose proof (Rabs_pos x) as X.
  replace (rnd (rnd (x * p) / 12) - PI / 12 * x) with ((rnd (rnd (x * p) / 12) - x * p / 12) + (p - PI) * (x / 12)) by field.
  eapply Rle_trans; [apply Rabs_triang|].
  assert (A : Rabs (x * p / 12) = Rabs x * p / 12) by (unfold Rdiv; rewrite !Rabs_mult, (Rabs_pos_eq p), (Rabs_pos_eq (/ 12)); lra). rewrite A in E.
  assert (B : Rabs ((p - PI) * (x / 12)) = (PI - p) * (Rabs x / 12)) by (unfold Rdiv; rewrite !Rabs_mult, (Rabs_left (p - PI)), (Rabs_pos_eq (/ 12)); lra). rewrite B.
  assert (C : (PI - p) * (Rabs x / 12) <= 4 / 10 * u * PI * (Rabs x / 12)) by (apply Rmult_le_compat_r; lra).
  assert (D : 21 / 10 * u * (Rabs x * p / 12) <= 21 / 10 * u * (Rabs x * PI / 12)) by (apply Rmult_le_compat_l; [lra|]; apply Rmult_le_compat_r; [lra|]; apply Rmult_le_compat_l; lra).
  lra.
Qed.

Lemma rad_err w : Rabs (rnd (rnd (w * 12) / p) - w * 12 / p) <= 21 / 10 * u * Rabs (w * 12 / p) + 3 * tiny.
Proof. apply two_steps. pose proof p_val. lra. Qed.
Lemma rad_err_pi w : Rabs (rnd (rnd (w * 12) / p) - 12 / PI * w) <= 3 * u * (12 / PI * Rabs w) + 3 * tiny.
Proof.
  pose proof (rad_err w) as E. destruct pi_near as (P1 & P2 & P3). pose proof p_val as PV. pose proof u_pos as U. pose proof (Rabs_pos w) as X.
  replace (rnd (rnd (w * 12) / p) - 12 / PI * w) with ((rnd (rnd (w * 12) / p) - w * 12 / p) + (PI - p) / p * (12 / PI * w)) by (field; lra).
  eapply Rle_trans; [apply Rabs_triang|].
  assert (IP : 0 < / p) by (apply Rinv_0_lt_compat; lra). assert (IPI : 0 < / PI) by (apply Rinv_0_lt_compat; lra).
  set (Y := 12 / PI * Rabs w). assert (YP : 0 <= Y) by (unfold Y, Rdiv; apply Rmult_le_pos; [|lra]; lra).
  assert (K : 0 <= (PI - p) / p <= 4 / 10 * u).
  { split; [unfold Rdiv; apply Rmult_le_pos; lra|]. apply (Rmult_le_reg_r p); [lra|]. replace ((PI - p) / p * p) with (PI - p) by (field; lra). exact P2. }
  assert (A : Rabs (w * 12 / p) = Y * (1 + (PI - p) / p)).
  { unfold Rdiv. rewrite !Rabs_mult, (Rabs_pos_eq 12), (Rabs_pos_eq (/ p)) by lra. unfold Y. field. lra. }
  assert (B : Rabs ((PI - p) / p * (12 / PI * w)) = (PI - p) / p * Y).
  { unfold Y. rewrite !Rabs_mult, (Rabs_pos_eq ((PI - p) / p)) by lra. rewrite (Rabs_pos_eq (12 / PI)) by (unfold Rdiv; lra). ring. }
  rewrite A in E. rewrite B. set (k := (PI - p) / p) in *.
  assert (C : k * Y <= 4 / 10 * u * Y) by (apply Rmult_le_compat_r; lra).
  assert (D : 21 / 10 * u * (Y * (1 + k)) <= 22 / 10 * (u * Y)).
  { assert (u * Y * k <= u * Y * (1 / 100)) by (apply Rmult_le_compat_l; [apply Rmult_le_pos; lra|rewrite u_val in K; lra]). assert (0 <= u * Y) by (apply Rmult_le_pos; lra). lra. }
  assert (0 <= u * Y) by (apply Rmult_le_pos; lra). lra.
Qed.

Lemma rad2hr_any w : fin w = true -> Rabs (toR w) <= bpow radix2 40 ->
  exists y, returns (fun n => rad2hr_f n w) y /\ fin y = true /\ 0 <= toR y <= 24 /\ (0 <= toR w -> toR y < 24) /\
    near_mod 24 (u * (3 * (12 / PI * Rabs (toR w)) + 24) + 3 * tiny) (toR y) (12 / PI * toR w) /\
    (0 <= toR w < 2 * p -> y = f64_div (f64_mul w (whole 12)) pi_f).
Proof.
  intros F B. destruct (rad_quot w F B) as (Q1 & Q2 & Q3).
  destruct (wrap_exact 0 24 24 ltac:(lia) ltac:(lia) ltac:(lia) ltac:(lia) ltac:(lia) None (f64_div (f64_mul w (whole 12)) pi_f)) as (y & N & W & FW & RW & SW & k & KW & XW);
    [right; split; reflexivity|exact Q2|eapply Rle_trans; [exact Q3|apply bpow_le; lia]|].
  exists y. split; [exists N; exact W|]. split; [exact FW|]. split; [exact RW|]. split; [|split].
  - intros P. apply XW. left. rewrite Q1. rewrite <- rnd_zero at 1. apply rnd_mono. pose proof p_val.
    apply Rmult_le_pos; [|left; apply Rinv_0_lt_compat; lra]. rewrite <- rnd_zero at 1. apply rnd_mono. apply Rmult_le_pos; lra.
  - eapply near_weak; [|eapply near_trans; [exists k; exact KW|apply near_close; rewrite Q1; apply rad_err_pi]]. lra.
  - intros P. apply SW. now apply rad_quot_in.
Qed.

(** ** There and back *)
Lemma back_hr x : 0 <= x -> 
  let w := rnd (rnd (x * p) / 12) in Rabs (rnd (rnd (w * 12) / p) - x) <= 5 * u * x + 20 * tiny.
Proof.
  intros X w. pose proof (hr_err x) as E. fold w in E. pose proof (rad_err w) as G. pose proof p_val as PV. pose proof u_pos as U. pose proof tiny_pos as T.
  assert (UV : u <= 1 / 1000) by (rewrite u_val; lra).
  assert (IP : 0 < / p < 1 / 3). { split; [apply Rinv_0_lt_compat; lra|]. replace (1 / 3) with (/ 3) by lra. apply Rinv_lt_contravar; lra. }
  rewrite (Rabs_pos_eq (x * p / 12)) in E by (unfold Rdiv; apply Rmult_le_pos; [apply Rmult_le_pos; lra|lra]).
  assert (H : Rabs (w * 12 / p - x) <= 21 / 10 * (u * x) + 12 * tiny).
  { replace (w * 12 / p - x) with ((w - x * p / 12) * (12 * / p)) by (field; lra). rewrite Rabs_mult, (Rabs_pos_eq (12 * / p)) by lra.
    apply Rle_trans with ((21 / 10 * u * (x * p / 12) + 3 * tiny) * (12 * / p)); [apply Rmult_le_compat_r; lra|].
    replace ((21 / 10 * u * (x * p / 12) + 3 * tiny) * (12 * / p)) with (21 / 10 * (u * x) + 36 * (tiny * / p)) by (field; lra).
    assert (tiny * / p <= tiny * (1 / 3)) by (apply Rmult_le_compat_l; lra). lra. }
  assert (K : Rabs (w * 12 / p) <= x + (21 / 10 * (u * x) + 12 * tiny)).
  { replace (w * 12 / p) with (x + (w * 12 / p - x)) by ring. eapply Rle_trans; [apply Rabs_triang|]. rewrite (Rabs_pos_eq x) by exact X. lra. }
  replace (rnd (rnd (w * 12) / p) - x) with ((rnd (rnd (w * 12) / p) - w * 12 / p) + (w * 12 / p - x)) by ring.
  eapply Rle_trans; [apply Rabs_triang|].
  assert (M : u * Rabs (w * 12 / p) <= u * (x + (21 / 10 * (u * x) + 12 * tiny))) by (apply Rmult_le_compat_l; lra).
  assert (N : u * (u * x) <= 1 / 1000 * (u * x)) by (apply Rmult_le_compat_r; [apply Rmult_le_pos; lra|exact UV]).
  assert (O : u * tiny <= 1 / 1000 * tiny) by (apply Rmult_le_compat_r; lra).
  assert (0 <= u * x) by (apply Rmult_le_pos; lra). lra.
Qed.
Lemma back_rad w : 0 <= w ->
  let y := rnd (rnd (w * 12) / p) in Rabs (rnd (rnd (y * p) / 12) - w) <= 5 * u * w + 20 * tiny.
Proof.
  intros X y. pose proof (rad_err w) as E. fold y in E. pose proof (hr_err y) as G. pose proof p_val as PV. pose proof u_pos as U. pose proof tiny_pos as T.
  assert (UV : u <= 1 / 1000) by (rewrite u_val; lra).
  assert (IP : 0 < / p < 1 / 3). { split; [apply Rinv_0_lt_compat; lra|]. replace (1 / 3) with (/ 3) by lra. apply Rinv_lt_contravar; lra. }
  rewrite (Rabs_pos_eq (w * 12 / p)) in E by (unfold Rdiv; apply Rmult_le_pos; lra).
  assert (H : Rabs (y * p / 12 - w) <= 21 / 10 * (u * w) + 3 * tiny).
  { replace (y * p / 12 - w) with ((y - w * 12 / p) * (p / 12)) by (field; lra). rewrite Rabs_mult, (Rabs_pos_eq (p / 12)) by lra.
    apply Rle_trans with ((21 / 10 * u * (w * 12 / p) + 3 * tiny) * (p / 12)); [apply Rmult_le_compat_r; lra|].
    replace ((21 / 10 * u * (w * 12 / p) + 3 * tiny) * (p / 12)) with (21 / 10 * (u * w) + tiny * (p / 4)) by (field; lra).
    assert (tiny * (p / 4) <= tiny * 3) by (apply Rmult_le_compat_l; lra). lra. }
  assert (K : Rabs (y * p / 12) <= w + (21 / 10 * (u * w) + 3 * tiny)).
  { replace (y * p / 12) with (w + (y * p / 12 - w)) by ring. eapply Rle_trans; [apply Rabs_triang|]. rewrite (Rabs_pos_eq w) by exact X. lra. }
  replace (rnd (rnd (y * p) / 12) - w) with ((rnd (rnd (y * p) / 12) - y * p / 12) + (y * p / 12 - w)) by ring.
  eapply Rle_trans; [apply Rabs_triang|].
  assert (M : u * Rabs (y * p / 12) <= u * (w + (21 / 10 * (u * w) + 3 * tiny))) by (apply Rmult_le_compat_l; lra).
  assert (N : u * (u * w) <= 1 / 1000 * (u * w)) by (apply Rmult_le_compat_r; [apply Rmult_le_pos; lra|exact UV]).
  assert (O : u * tiny <= 1 / 1000 * tiny) by (apply Rmult_le_compat_r; lra).
  assert (0 <= u * w) by (apply Rmult_le_pos; lra). lra.
Qed.
