(** Proofs about whole turns in [hr2rad]: below ten turns they are taken off without rounding. *)
From Coq Require Import ZArith Reals Bool Lia Lra.
From Flocq Require Import Core Relative BinarySingleNaN.
From Verif Require Import PyBase FloatModel FloatProofs FtimeModel FtimeSpec FtimeProofs FtimeProofs2 FradModel FradProofs.
Open Scope R_scope.

Local Instance prec53_t : Prec_gt_0 53 := prec53.

Lemma b6 : bpow radix2 6 = 64. Proof. reflexivity. Qed.
Lemma turn_exact v s : isf v -> Rabs v < 64 -> (s = 1 \/ s = -1)%Z -> Rabs (v - IZR s * (2 * p)) <= Rabs v -> isf (v - IZR s * (2 * p)).
Proof.
  intros F B S H. apply FLT_format_generic in F; [|exact prec53]. destruct F as [[n e] E L G]. cbn [Fnum Fexp] in *.
  unfold F2R in E. cbn [Fnum Fexp] in E. set (M := 884279719003555%Z).
  assert (PM : 2 * p = IZR M * bpow radix2 (-47)).
  { change (bpow radix2 (-47)) with (/ 140737488355328). unfold p, M. lra. }
  apply generic_format_FLT. destruct (Z_le_gt_dec e (-47)) as [Le|Gt].
  - assert (X : v - IZR s * (2 * p) = IZR (n - s * M * 2 ^ (-47 - e)) * bpow radix2 e).
    { rewrite minus_IZR, !mult_IZR. change (2 ^ (-47 - e))%Z with (radix2 ^ (-47 - e))%Z. rewrite (IZR_Zpower radix2) by lia.
      rewrite PM, E, Rmult_minus_distr_r, !Rmult_assoc, <- bpow_plus. repeat f_equal. lia. }
    apply (FLT_spec _ _ _ _ (Float radix2 (n - s * M * 2 ^ (-47 - e)) e)); cbn [Fnum Fexp]; [exact X| |exact G].
    rewrite X, E, !Rabs_mult in H. apply Rmult_le_reg_r in H; [|rewrite Rabs_pos_eq by apply bpow_ge_0; apply bpow_gt_0].
    rewrite <- !abs_IZR in H. apply le_IZR in H. lia.
  - set (N := (n * 2 ^ (e + 47))%Z).
    assert (EN : v = IZR N * bpow radix2 (-47)).
    { unfold N. rewrite mult_IZR. change (2 ^ (e + 47))%Z with (radix2 ^ (e + 47))%Z. rewrite (IZR_Zpower radix2) by lia.
      rewrite E, Rmult_assoc, <- bpow_plus. do 2 f_equal. lia. }
    assert (X : v - IZR s * (2 * p) = IZR (N - s * M) * bpow radix2 (-47)) by (rewrite minus_IZR, mult_IZR, EN, PM; ring).
    apply (FLT_spec _ _ _ _ (Float radix2 (N - s * M) (-47))); cbn [Fnum Fexp]; [exact X| |lia].
    rewrite X in H. rewrite Rabs_mult, (Rabs_pos_eq (bpow radix2 (-47))) in H by apply bpow_ge_0.
    assert (Y : Rabs (IZR (N - s * M)) * bpow radix2 (-47) < IZR (radix2 ^ 53) * bpow radix2 (-47)).
    { eapply Rle_lt_trans; [exact H|]. change (bpow radix2 (-47)) with (/ 140737488355328). change (IZR (radix2 ^ 53)) with 9007199254740992. lra. }
    apply Rmult_lt_reg_r in Y; [|apply bpow_gt_0]. rewrite <- abs_IZR in Y. apply lt_IZR in Y. exact Y.
Qed.

Lemma rnd_id x : isf x -> rnd x = x.
Proof. intros H. apply round_generic; auto with typeclass_instances. Qed.

(** Taking turns off. *)
Lemma turns_off k : forall v, fin v = true -> 0 <= toR v -> toR v < 64 -> toR v < 2 * p * INR (S k) ->
  exists w j, (forall n, (k <= n)%nat -> sub_loop_f n turn_f turn_f v = Ok w) /\ fin w = true /\ 0 <= toR w < 2 * p /\
    toR w = toR v - INR j * (2 * p).
Proof.
  destruct turn_R as [TE TF]. pose proof p_val as PV. induction k as [|k IH]; intros v F L U H.
  - cbn [INR] in H. exists v, O. split; [|split; [exact F|split; [lra|cbn [INR]; ring]]]. intros n _.
    assert (E : f64_le turn_f v = false) by (destruct (f64_le turn_f v) eqn:E; [apply le_true in E; try assumption; rewrite TE in E; lra|reflexivity]).
    destruct n; cbn [sub_loop_f]; now rewrite E.
  - destruct (Rlt_le_dec (toR v) (2 * p)) as [Q|Q].
    + exists v, O. split; [|split; [exact F|split; [lra|cbn [INR]; ring]]]. intros n _.
      assert (E : f64_le turn_f v = false) by (destruct (f64_le turn_f v) eqn:E; [apply le_true in E; try assumption; rewrite TE in E; lra|reflexivity]).
      destruct n; cbn [sub_loop_f]; now rewrite E.
    + destruct (sub_R v turn_f F TF) as [S1 S2].
      { rewrite TE, Rabs_pos_eq by lra. apply Rle_trans with (bpow radix2 6); [rewrite b6; lra|apply bpow_le; lia]. }
      assert (X : toR v - 2 * p = toR v - IZR 1 * (2 * p)) by lra.
      rewrite TE in S1. rewrite rnd_id in S1 by (rewrite X; apply turn_exact; [apply isf_toR|rewrite Rabs_pos_eq; lra|auto|rewrite !Rabs_pos_eq; lra]).
      destruct (IH (f64_sub v turn_f) S2) as (w & j & W & FW & RW & EW); [lra|lra|rewrite S1; rewrite S_INR in H; lra|].
      exists w, (S j). split; [|split; [exact FW|split; [exact RW|rewrite EW, S1, S_INR; ring]]].
      intros n Hn. assert (E : f64_le turn_f v = true) by (apply le_true; try assumption; rewrite TE; exact Q).
      destruct n; [lia|]. cbn [sub_loop_f]. rewrite E. apply W. lia.
Qed.

(** Adding turns: only the last one may round. *)
Lemma turns_on k : forall v, fin v = true -> toR v <= 0 -> -64 < toR v -> - (2 * p * INR k) <= toR v ->
  exists w j, (forall n, (k <= n)%nat -> add_loop_f n (B754_zero false) turn_f v = Ok w) /\ fin w = true /\ 0 <= toR w <= 2 * p /\
    Rabs (toR w - (toR v + INR j * (2 * p))) <= u * (2 * p) + tiny.
Proof.
  destruct turn_R as [TE TF]. pose proof p_val as PV. pose proof u_pos as UP. pose proof tiny_pos as TP.
  assert (BASE : forall v k, fin v = true -> toR v = 0 -> exists w j, (forall n, (k <= n)%nat -> add_loop_f n (B754_zero false) turn_f v = Ok w) /\ fin w = true /\ 0 <= toR w <= 2 * p /\
    Rabs (toR w - (toR v + INR j * (2 * p))) <= u * (2 * p) + tiny).
  { intros v k' F Z. exists v, O. split; [|split; [exact F|split; [lra|]]].
    - intros n _. assert (E : f64_lt v (B754_zero false) = false) by (destruct (f64_lt v (B754_zero false)) eqn:E; [apply lt_true in E; try assumption; change (toR (B754_zero false : f64)) with 0 in E; lra|reflexivity]).
      destruct n; cbn [add_loop_f]; now rewrite E.
    - cbn [INR]. replace (toR v - (toR v + 0 * (2 * p))) with 0 by ring. rewrite Rabs_R0. assert (0 <= u * (2 * p)) by (apply Rmult_le_pos; lra). lra. }
  induction k as [|k IH]; intros v F L U H.
  - cbn [INR] in H. apply BASE; [exact F|lra].
  - destruct (Req_dec (toR v) 0) as [Z|Z]; [now apply BASE|].
    assert (E : f64_lt v (B754_zero false) = true) by (apply lt_true; [exact F|reflexivity|]; change (toR (B754_zero false : f64)) with 0; lra).
    destruct (add_R v turn_f F TF) as [S1 S2].
    { rewrite TE. apply Rle_trans with (bpow radix2 7); [|apply bpow_le; lia]. change (bpow radix2 7) with 128. apply Rabs_le. lra. }
    rewrite TE in S1. destruct (Rle_lt_dec (toR v) (- (2 * p))) as [Q|Q].
    + assert (X : toR v + 2 * p = toR v - IZR (-1) * (2 * p)) by lra.
      rewrite rnd_id in S1 by (rewrite X; apply turn_exact; [apply isf_toR|rewrite Rabs_left1; lra|auto|rewrite !Rabs_left1; lra]).
      destruct (IH (f64_add v turn_f) S2) as (w & j & W & FW & RW & EW); [lra|lra|rewrite S1; rewrite S_INR in H; lra|].
      exists w, (S j). split; [|split; [exact FW|split; [exact RW|]]].
      * intros n Hn. destruct n; [lia|]. cbn [add_loop_f]. rewrite E. apply W. lia.
      * rewrite S1 in EW. rewrite S_INR. replace (toR w - (toR v + (INR j + 1) * (2 * p))) with (toR w - (toR v + 2 * p + INR j * (2 * p))) by ring. exact EW.
    + exists (f64_add v turn_f), 1%nat.
      assert (RG : 0 <= rnd (toR v + 2 * p) <= 2 * p).
      { split; [rewrite <- rnd_zero at 1; apply rnd_mono; lra|]. rewrite <- (rnd_id (2 * p)) at 2 by (rewrite <- TE; apply isf_toR). apply rnd_mono. lra. }
      split; [|split; [exact S2|split; [now rewrite S1|]]].
      * intros n Hn. destruct n; [lia|]. cbn [add_loop_f]. rewrite E.
        assert (E2 : f64_lt (f64_add v turn_f) (B754_zero false) = false).
        { destruct (f64_lt (f64_add v turn_f) (B754_zero false)) eqn:E2; [|reflexivity]. apply lt_true in E2; [|exact S2|reflexivity]. change (toR (B754_zero false : f64)) with 0 in E2. rewrite S1 in E2. lra. }
        destruct n; cbn [add_loop_f]; now rewrite E2.
      * rewrite S1. cbn [INR]. rewrite Rmult_1_l. apply rnd_err1. apply Rabs_le. lra.
Qed.

Lemma limits_ok n v : fix_range_f n v (f64_sub turn_f turn_f) turn_f None =
  bind (sub_loop_f n turn_f turn_f v) (add_loop_f n (B754_zero false) turn_f).
Proof.
  rewrite base_eq. unfold fix_range_f.
  assert (A : f64_le turn_f (B754_zero false) = false) by (vm_compute; reflexivity). rewrite A.
  assert (B : f64_sub turn_f (B754_zero false) = turn_f) by (apply B2SF_inj; vm_compute; reflexivity). rewrite B, A. reflexivity.
Qed.

(** Ten turns either way. *)
Lemma hr2rad_turns x : fin x = true -> Rabs (toR x) <= 240 ->
  exists w k, returns (fun n => hr2rad_f n x) w /\ fin w = true /\ 0 <= toR w <= 2 * p /\
    Rabs (toR w - (rnd (rnd (toR x * p) / 12) + IZR k * (2 * p))) <= u * (2 * p) + tiny /\
    (0 <= toR x -> toR w = rnd (rnd (toR x * p) / 12) + IZR k * (2 * p) /\ toR w < 2 * p).
Proof.
  intros F B. destruct (hr_quot x F) as (Q1 & Q2 & _); [rewrite b40; lra|]. set (v := f64_div (f64_mul x pi_f) (whole 12)) in *.
  pose proof p_val as PV. pose proof u_pos as UP. pose proof tiny_pos as TP. destruct turn_R as [TE TF].
  pose proof (hr_err (toR x)) as E. rewrite <- Q1 in E.
  assert (A : Rabs (toR x * p / 12) <= 20 * p).
  { unfold Rdiv. rewrite !Rabs_mult, (Rabs_pos_eq p), (Rabs_pos_eq (/ 12)) by lra. assert (Rabs (toR x) * p <= 240 * p) by (apply Rmult_le_compat_r; lra). lra. }
  assert (V : Rabs (toR v) < 63).
  { replace (toR v) with (toR x * p / 12 + (toR v - toR x * p / 12)) by ring. eapply Rle_lt_trans; [apply Rabs_triang|].
    pose proof tiny_u as TU. assert (u * Rabs (toR x * p / 12) <= u * (20 * p)) by (apply Rmult_le_compat_l; lra).
    rewrite u_val in *. lra. }
  assert (TP2 : 0 <= u * (2 * p)) by (apply Rmult_le_pos; lra).
  rewrite <- Q1. destruct (Rle_lt_dec 0 (toR v)) as [L|L].
  - rewrite Rabs_pos_eq in V by exact L.
    destruct (turns_off 11 v Q2) as (w & j & W & FW & RW & EW); [lra|lra|cbn [INR]; lra|].
    assert (SAME : toR w = toR v + IZR (- Z.of_nat j) * (2 * p)) by (rewrite opp_IZR, <- INR_IZR_INZ; lra).
    exists w, (- Z.of_nat j)%Z. split; [|split; [exact FW|split; [lra|split; [|intros _; split; [exact SAME|lra]]]]].
    + exists 11%nat. intros n Hn. unfold hr2rad_f, hr2rad_to. fold v. rewrite limits_ok, (W n Hn). cbn [bind].
      assert (E2 : f64_lt w (B754_zero false) = false) by (destruct (f64_lt w (B754_zero false)) eqn:E2; [apply lt_true in E2; try assumption; change (toR (B754_zero false : f64)) with 0 in E2; lra|reflexivity]).
      destruct n; cbn [add_loop_f]; now rewrite E2.
    + rewrite SAME. replace (toR v + IZR (- Z.of_nat j) * (2 * p) - (toR v + IZR (- Z.of_nat j) * (2 * p))) with 0 by ring. rewrite Rabs_R0. lra.
  - rewrite Rabs_left in V by exact L.
    destruct (turns_on 11 v Q2) as (w & j & W & FW & RW & EW); [lra|lra|cbn [INR]; lra|].
    exists w, (Z.of_nat j). split; [|split; [exact FW|split; [exact RW|split; [rewrite <- INR_IZR_INZ; exact EW|]]]].
    + exists 11%nat. intros n Hn. unfold hr2rad_f, hr2rad_to. fold v. rewrite limits_ok.
      assert (E2 : f64_le turn_f v = false) by (destruct (f64_le turn_f v) eqn:E2; [apply le_true in E2; try assumption; rewrite TE in E2; lra|reflexivity]).
      assert (E3 : sub_loop_f n turn_f turn_f v = Ok v) by (destruct n; cbn [sub_loop_f]; now rewrite E2). rewrite E3. cbn [bind]. now apply W.
    + intros P. exfalso. assert (0 <= toR v); [|lra]. rewrite Q1. rewrite <- rnd_zero at 1. apply rnd_mono. apply Rmult_le_pos; [|lra].
      rewrite <- rnd_zero at 1. apply rnd_mono. apply Rmult_le_pos; lra.
Qed.

Lemma turns_near w k x : Rabs x <= 240 -> Rabs w <= 2 * p -> Rabs (w - (rnd (rnd (x * p) / 12) + IZR k * (2 * p))) <= u * (2 * p) + tiny ->
  Rabs (w - (PI / 12 * x + IZR k * (2 * PI))) <= u * (3 * (PI / 12 * Rabs x) + 5 * PI) + 4 * tiny.
Proof.
  intros B RW KW.
  pose proof (hr_err_pi (x)) as E. destruct pi_near as (P1 & P2 & P3). pose proof p_val as PV. pose proof u_pos as UP. pose proof tiny_pos as TP.
  pose proof (Rabs_pos (x)) as X. set (v := rnd (rnd (x * p) / 12)) in *. set (a := Rabs (x)) in *.
  pose proof tiny_u as TU.
  assert (UX : 0 <= u * a <= 240 * u) by (split; [apply Rmult_le_pos; lra|rewrite (Rmult_comm u); apply Rmult_le_compat_r; lra]).
  assert (UA : 0 <= u * (PI / 12 * a) <= 1 / 1000000).
  { split; [apply Rmult_le_pos; [lra|apply Rmult_le_pos; lra]|]. apply Rle_trans with (u * (PI / 12 * 240)); [apply Rmult_le_compat_l; [lra|]; apply Rmult_le_compat_l; lra|]. rewrite u_val in *. lra. }
  assert (K : Rabs (IZR k * (2 * p)) <= p * a / 12 + 2 * p + 1 / 1000).
  { replace (IZR k * (2 * p)) with (w - PI / 12 * x - (w - (v + IZR k * (2 * p))) - (v - PI / 12 * x)) by ring.
    eapply Rle_trans; [apply Rabs_triang|]. rewrite Rabs_Ropp. eapply Rle_trans; [apply Rplus_le_compat_r; apply Rabs_triang|]. rewrite Rabs_Ropp.
    eapply Rle_trans; [apply Rplus_le_compat_r; apply Rplus_le_compat_r; apply Rabs_triang|]. rewrite Rabs_Ropp, (Rabs_mult (PI / 12)), (Rabs_pos_eq (PI / 12)) by lra.
    fold a. assert (U1 : u * (2 * p) <= 1 / 100000) by (rewrite u_val; lra).
    assert (U2 : (PI - p) * a <= 4 / 10 * u * p * a) by (apply Rmult_le_compat_r; lra).
    assert (U3 : p * (u * a) <= p * (240 * u)) by (apply Rmult_le_compat_l; lra).
    rewrite u_val in *. lra. }
  assert (K2 : Rabs (IZR k * (2 * (p - PI))) <= 4 / 10 * u * (PI / 12 * a) + 21 / 10 * (4 / 10 * u) * PI).
  { replace (IZR k * (2 * (p - PI))) with (IZR k * (2 * p) * (- ((PI - p) / p))) by (field; lra). rewrite Rabs_mult, Rabs_Ropp.
    assert (IP : 0 < / p) by (apply Rinv_0_lt_compat; lra).
    assert (KP : 0 <= (PI - p) / p <= 4 / 10 * u).
    { split; [unfold Rdiv; apply Rmult_le_pos; lra|]. apply (Rmult_le_reg_r p); [lra|]. replace ((PI - p) / p * p) with (PI - p) by (field; lra). exact P2. }
    rewrite (Rabs_pos_eq ((PI - p) / p)) by lra.
    apply Rle_trans with ((p * a / 12 + 2 * p + 1 / 1000) * (4 / 10 * u)); [apply Rmult_le_compat; [apply Rabs_pos|lra|exact K|lra]|].
    assert (p * (u * a) <= PI * (u * a)) by (apply Rmult_le_compat_r; lra).
    assert (u * p <= u * PI) by (apply Rmult_le_compat_l; lra).
    assert (3 * u <= u * PI) by (rewrite (Rmult_comm 3); apply Rmult_le_compat_l; lra). lra. }
  replace (w - (PI / 12 * x + IZR k * (2 * PI))) with ((w - (v + IZR k * (2 * p))) + ((v - PI / 12 * x) + IZR k * (2 * (p - PI)))) by ring.
  eapply Rle_trans; [apply Rabs_triang|]. eapply Rle_trans; [apply Rplus_le_compat_l; apply Rabs_triang|].
  assert (u * p <= u * PI) by (apply Rmult_le_compat_l; lra).
  assert (0 <= u * PI) by (apply Rmult_le_pos; lra). lra.
Qed.

Lemma hr2rad_near x : fin x = true -> Rabs (toR x) <= 240 ->
  exists w, returns (fun n => hr2rad_f n x) w /\ near_mod (2 * PI) (u * (3 * (PI / 12 * Rabs (toR x)) + 5 * PI) + 4 * tiny) (toR w) (PI / 12 * toR x).
Proof.
  intros F B. destruct (hr2rad_turns x F B) as (w & k & W & _ & RW & KW & _). exists w. split; [exact W|]. exists k.
  apply turns_near; [exact B|rewrite Rabs_pos_eq; lra|exact KW].
Qed.

(** ** The range of plus or minus pi *)
Lemma signed_off k : forall v, fin v = true -> - p <= toR v -> toR v < 64 -> toR v < p + 2 * p * INR k ->
  exists w j, (forall n, (k <= n)%nat -> sub_loop_f n pi_f turn_f v = Ok w) /\ fin w = true /\ - p <= toR w < p /\
    toR w = toR v - INR j * (2 * p).
Proof.
  destruct turn_R as [TE TF]. destruct pi_R as [PE PF]. pose proof p_val as PV. induction k as [|k IH]; intros v F L U H.
  - cbn [INR] in H. exists v, O. split; [|split; [exact F|split; [lra|cbn [INR]; ring]]]. intros n _.
    assert (E : f64_le pi_f v = false) by (destruct (f64_le pi_f v) eqn:E; [apply le_true in E; try assumption; rewrite PE in E; lra|reflexivity]).
    destruct n; cbn [sub_loop_f]; now rewrite E.
  - destruct (Rlt_le_dec (toR v) p) as [Q|Q].
    + exists v, O. split; [|split; [exact F|split; [lra|cbn [INR]; ring]]]. intros n _.
      assert (E : f64_le pi_f v = false) by (destruct (f64_le pi_f v) eqn:E; [apply le_true in E; try assumption; rewrite PE in E; lra|reflexivity]).
      destruct n; cbn [sub_loop_f]; now rewrite E.
    + destruct (sub_R v turn_f F TF) as [S1 S2].
      { rewrite TE. apply Rle_trans with (bpow radix2 7); [change (bpow radix2 7) with 128; apply Rabs_le; lra|apply bpow_le; lia]. }
      assert (X : toR v - 2 * p = toR v - IZR 1 * (2 * p)) by lra.
      rewrite TE in S1. rewrite rnd_id in S1 by (rewrite X; apply turn_exact; [apply isf_toR|rewrite Rabs_pos_eq; lra|auto|rewrite (Rabs_pos_eq (toR v)) by lra; apply Rabs_le; lra]).
      destruct (IH (f64_sub v turn_f) S2) as (w & j & W & FW & RW & EW); [lra|lra|rewrite S1; rewrite S_INR in H; lra|].
      exists w, (S j). split; [|split; [exact FW|split; [exact RW|rewrite EW, S1, S_INR; ring]]].
      intros n Hn. assert (E : f64_le pi_f v = true) by (apply le_true; try assumption; rewrite PE; exact Q).
      destruct n; [lia|]. cbn [sub_loop_f]. rewrite E. apply W. lia.
Qed.

Definition neg_pi_f : f64 := @B754_finite 53 1024 true 7074237752028440 (-51) eq_refl.
Lemma neg_pi_R : toR neg_pi_f = - p /\ fin neg_pi_f = true.
Proof.
  split; [|reflexivity]. unfold neg_pi_f, B2R, F2R, Defs.Fnum, Defs.Fexp, p. cbn [cond_Zopp bpow Z.opp].
  change (Z.pow_pos radix2 51) with 2251799813685248%Z. lra.
Qed.
Lemma signed_on k : forall v, fin v = true -> toR v < p -> -64 < toR v -> - p - 2 * p * INR k <= toR v ->
  exists w j, (forall n, (k <= n)%nat -> add_loop_f n neg_pi_f turn_f v = Ok w) /\ fin w = true /\ - p <= toR w < p /\
    toR w = toR v + INR j * (2 * p).
Proof.
  destruct turn_R as [TE TF]. destruct neg_pi_R as [PE PF]. pose proof p_val as PV. induction k as [|k IH]; intros v F L U H.
  - cbn [INR] in H. exists v, O. split; [|split; [exact F|split; [lra|cbn [INR]; ring]]]. intros n _.
    assert (E : f64_lt v neg_pi_f = false) by (destruct (f64_lt v neg_pi_f) eqn:E; [apply lt_true in E; try assumption; rewrite PE in E; lra|reflexivity]).
    destruct n; cbn [add_loop_f]; now rewrite E.
  - destruct (Rle_lt_dec (- p) (toR v)) as [Q|Q].
    + exists v, O. split; [|split; [exact F|split; [lra|cbn [INR]; ring]]]. intros n _.
      assert (E : f64_lt v neg_pi_f = false) by (destruct (f64_lt v neg_pi_f) eqn:E; [apply lt_true in E; try assumption; rewrite PE in E; lra|reflexivity]).
      destruct n; cbn [add_loop_f]; now rewrite E.
    + destruct (add_R v turn_f F TF) as [S1 S2].
      { rewrite TE. apply Rle_trans with (bpow radix2 7); [change (bpow radix2 7) with 128; apply Rabs_le; lra|apply bpow_le; lia]. }
      assert (X : toR v + 2 * p = toR v - IZR (-1) * (2 * p)) by lra.
      rewrite TE in S1. rewrite rnd_id in S1 by (rewrite X; apply turn_exact; [apply isf_toR|rewrite Rabs_left1; lra|auto|rewrite (Rabs_left1 (toR v)) by lra; apply Rabs_le; lra]).
      destruct (IH (f64_add v turn_f) S2) as (w & j & W & FW & RW & EW); [lra|lra|rewrite S1; rewrite S_INR in H; lra|].
      exists w, (S j). split; [|split; [exact FW|split; [exact RW|rewrite EW, S1, S_INR; ring]]].
      intros n Hn. assert (E : f64_lt v neg_pi_f = true) by (apply lt_true; try assumption; rewrite PE; exact Q).
      destruct n; [lia|]. cbn [add_loop_f]. rewrite E. apply W. lia.
Qed.

Lemma signed_limits n v : fix_range_f n v (f64_sub pi_f turn_f) pi_f None =
  bind (sub_loop_f n pi_f turn_f v) (add_loop_f n neg_pi_f turn_f).
Proof.
  assert (Z : f64_sub pi_f turn_f = neg_pi_f) by (apply B2SF_inj; vm_compute; reflexivity). rewrite Z. unfold fix_range_f.
  assert (A : f64_le pi_f neg_pi_f = false) by (vm_compute; reflexivity). rewrite A.
  assert (B : f64_sub pi_f neg_pi_f = turn_f) by (apply B2SF_inj; vm_compute; reflexivity). rewrite B.
  assert (C : f64_le turn_f (B754_zero false) = false) by (vm_compute; reflexivity). now rewrite C.
Qed.

Lemma signed_turns x : fin x = true -> Rabs (toR x) <= 240 ->
  exists w k, returns (fun n => hr2rad_to n x pi_f) w /\ fin w = true /\ - p <= toR w < p /\
    toR w = rnd (rnd (toR x * p) / 12) + IZR k * (2 * p).
Proof.
  intros F B. destruct (hr_quot x F) as (Q1 & Q2 & _); [rewrite b40; lra|]. set (v := f64_div (f64_mul x pi_f) (whole 12)) in *.
  pose proof p_val as PV. pose proof u_pos as UP. pose proof tiny_pos as TP. destruct pi_R as [PE PF]. destruct neg_pi_R as [NE NF].
  pose proof (hr_err (toR x)) as E. rewrite <- Q1 in E.
  assert (A : Rabs (toR x * p / 12) <= 20 * p).
  { unfold Rdiv. rewrite !Rabs_mult, (Rabs_pos_eq p), (Rabs_pos_eq (/ 12)) by lra. assert (Rabs (toR x) * p <= 240 * p) by (apply Rmult_le_compat_r; lra). lra. }
  assert (V : Rabs (toR v) < 63).
  { replace (toR v) with (toR x * p / 12 + (toR v - toR x * p / 12)) by ring. eapply Rle_lt_trans; [apply Rabs_triang|].
    pose proof tiny_u as TU. assert (u * Rabs (toR x * p / 12) <= u * (20 * p)) by (apply Rmult_le_compat_l; lra).
    rewrite u_val in *. lra. }
  apply Rabs_def2 in V. rewrite <- Q1. destruct (Rle_lt_dec (- p) (toR v)) as [L|L].
  - destruct (signed_off 11 v Q2) as (w & j & W & FW & RW & EW); [lra|lra|cbn [INR]; lra|].
    exists w, (- Z.of_nat j)%Z. split; [|split; [exact FW|split; [exact RW|rewrite opp_IZR, <- INR_IZR_INZ; lra]]].
    exists 11%nat. intros n Hn. unfold hr2rad_to. fold v. rewrite signed_limits, (W n Hn). cbn [bind].
    assert (E2 : f64_lt w neg_pi_f = false) by (destruct (f64_lt w neg_pi_f) eqn:E2; [apply lt_true in E2; try assumption; rewrite NE in E2; lra|reflexivity]).
    destruct n; cbn [add_loop_f]; now rewrite E2.
  - destruct (signed_on 11 v Q2) as (w & j & W & FW & RW & EW); [lra|lra|cbn [INR]; lra|].
    exists w, (Z.of_nat j). split; [|split; [exact FW|split; [exact RW|rewrite <- INR_IZR_INZ; lra]]].
    exists 11%nat. intros n Hn. unfold hr2rad_to. fold v. rewrite signed_limits.
    assert (E2 : f64_le pi_f v = false) by (destruct (f64_le pi_f v) eqn:E2; [apply le_true in E2; try assumption; rewrite PE in E2; lra|reflexivity]).
    assert (E3 : sub_loop_f n pi_f turn_f v = Ok v) by (destruct n; cbn [sub_loop_f]; now rewrite E2). rewrite E3. cbn [bind]. now apply W.
Qed.

Lemma signed_near x : fin x = true -> Rabs (toR x) <= 240 ->
  exists w, returns (fun n => hr2rad_to n x pi_f) w /\ fin w = true /\ - p <= toR w < p /\
    near_mod (2 * PI) (u * (3 * (PI / 12 * Rabs (toR x)) + 5 * PI) + 4 * tiny) (toR w) (PI / 12 * toR x).
Proof.
  intros F B. destruct (signed_turns x F B) as (w & k & W & FW & RW & KW). exists w. split; [exact W|]. split; [exact FW|]. split; [exact RW|]. exists k.
  pose proof p_val. pose proof u_pos. pose proof tiny_pos. apply turns_near; [exact B|apply Rabs_le; lra|].
  rewrite KW, Rminus_diag_eq, Rabs_R0 by reflexivity. assert (0 <= u * (2 * p)) by (apply Rmult_le_pos; lra). lra.
Qed.
