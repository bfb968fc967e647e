(** C182-C183: seconds of year and seconds of day in binary64. *)
From Coq Require Import String Ascii ZArith QArith Qround Qabs Qreals Reals List Bool Lia Lra.
From Flocq Require Import Core BinarySingleNaN.
From Verif Require Import PyBase TimeModel TimeSpec TimeProofs TimeProofs2 TimeProofs3 TimeProofs4 PropertiesTime FloatModel FloatProofs FtimeModel FtimeSpec FtimeProofs FtimeProofs2 FradProofs FsoyModel FsoyProofs.
Import ListNotations.
Open Scope string_scope.
Open Scope list_scope.
Open Scope Z_scope.
Local Instance prec53_p : Prec_gt_0 53 := prec53.

(** ** C182: seconds of year *)

(** The time of a double is the time of its exact value, up to 2^50 seconds. *)
Theorem C182_exact :
  forall y soy q yyddd sod sod' date tod fmt, is_finite soy = true -> (0 <= B2R soy <= bpow radix2 50)%R -> Q2R q = B2R soy ->
    year_soy_to_datetime_f y soy = year_soy_to_datetime y q /\
    convert_time_f (Some y) (Some soy) yyddd sod date tod fmt = convert_time (Some y) (Some q) yyddd sod' date tod fmt.
Proof.
  intros y soy q yyddd sod sod' date tod fmt F B E. split; [now apply year_soy_exact|now apply convert_soy_exact].
Qed.
(** ... and every finite double has such a value. *)
Theorem C182_value : forall soy : f64, is_finite soy = true -> Q2R (b2q soy) = B2R soy.
Proof. exact b2q_R. Qed.

(** Whole seconds of a year. *)
Theorem C182_whole_seconds :
  forall y s soy, 1000 <= y <= 9999 -> 0 <= s < 366 * 86400 -> (y = 9999 -> s < 365 * 86400) ->
    is_finite soy = true -> B2R soy = IZR s ->
    exists d, year_start y d /\ year_soy_to_datetime_f y soy = Ok (day_us d + sec_us s).
Proof.
  intros y s soy Hy Hs H9 F E.
  assert (B : (0 <= B2R soy <= bpow radix2 50)%R). { rewrite E. change (bpow radix2 50) with (IZR (2 ^ 50)). split; apply IZR_le; lia. }
  rewrite (year_soy_exact y soy (inject_Z s) (conj F B)) by (rewrite Q2R_inj; exact (eq_sym E)). apply C22_year_soy; [exact Hy|exact Hs|]. destruct (Z.eq_dec y 9999) as [N|N]; [right; now apply H9|left; lia].
Qed.

(** Seconds in the last half second of a minute. *)
Definition end_of_minute (x : R) : Prop := exists k : Z, (IZR (60 * k) + 119 / 2 <= x < IZR (60 * k) + 60)%R.
Lemma end_of_minute_q q : end_of_minute (Q2R q) <-> last_half_second q.
Proof.
  assert (H : forall k, Q2R (inject_Z (60 * k) + (119 # 2)) = (IZR (60 * k) + 119 / 2)%R /\ Q2R (inject_Z (60 * k) + 60) = (IZR (60 * k) + 60)%R).
  { intros k. rewrite !Q2R_plus, Q2R_inj. split; f_equal. unfold Q2R. cbn. lra. }
  split; intros [k [A B]]; exists k; destruct (H k) as [H1 H2].
  - split; [apply Rle_Qle; rewrite H1; exact A|apply Rlt_Qlt; rewrite H2; exact B].
  - apply Qle_Rle in A. apply Qlt_Rlt in B. rewrite H1 in A. rewrite H2 in B. now split.
Qed.
Lemma q_bound q z : (Q2R q < IZR z)%R -> (q < inject_Z z)%Q.
Proof. intros H. apply Rlt_Qlt. now rewrite Q2R_inj. Qed.

(** Other seconds: to the nearest second, unless in the last half second of a minute. *)
Theorem C182_nearest_second_partial :
  forall y soy, 1000 <= y <= 9999 -> is_finite soy = true -> (0 <= B2R soy < 365 * 86400)%R -> ~ end_of_minute (B2R soy) ->
    exists d t, year_start y d /\ year_soy_to_datetime_f y soy = Ok t /\
      (Rabs (IZR (t - day_us d) - B2R soy * 1000000) <= 500000)%R.
Proof.
  intros y soy Hy F B N. pose proof (b2q_R soy F) as E. rewrite <- E in *.
  destruct (C23_fractional_seconds_partial y (b2q soy) Hy) as (d & t & D & T & R).
  - apply Rle_Qle. rewrite RMicromega.Q2R_0. lra.
  - change (365 * 86400)%Q with (inject_Z (365 * 86400)). apply q_bound. change (IZR (365 * 86400)) with 31536000%R. lra.
  - intros K. apply N. now apply end_of_minute_q.
  - exists d, t. split; [exact D|]. split.
    + rewrite (year_soy_exact y soy (b2q soy)); [exact T| |exact E]. split; [exact F|]. rewrite <- E. change (bpow radix2 50) with 1125899906842624%R. lra.
    + apply Qabs_Qle_condition in R. destruct R as [R1 R2]. apply Qle_Rle in R1. apply Qle_Rle in R2.
      rewrite Q2R_minus, Q2R_mult, Q2R_inj in R1, R2. rewrite Q2R_opp in R1. change (Q2R 500000) with (IZR 500000 * / IZR 1)%R in *. change (Q2R 1000000) with (IZR 1000000 * / IZR 1)%R in *.
      apply Rabs_le. lra.
Qed.

(** In the last half second, before 0 and after 366 days it is a ValueError.  (Negative
    numbers closer to 0 than 2^-1000 are left out.) *)
Theorem C182_rejected :
  forall y soy, 1000 <= y <= 9999 -> is_finite soy = true -> (Rabs (B2R soy) <= bpow radix2 50)%R ->
    ((0 <= B2R soy)%R /\ end_of_minute (B2R soy)) \/ (366 * 86400 <= B2R soy)%R \/ (B2R soy <= - bpow radix2 (-1000))%R ->
    year_soy_to_datetime_f y soy = Err ValueError.
Proof.
  intros y soy Hy F B H. apply Rabs_le_inv in B. pose proof (b2q_R soy F) as E.
  assert (K : (366 * 86400 <= B2R soy)%R -> year_soy_to_datetime_f y soy = Err ValueError).
  { intros L. rewrite (year_soy_exact y soy (b2q soy)); [|split; [exact F|lra]|exact E]. apply year_soy_bad_day; [exact Hy|]. right.
    change (366 * 86400)%Q with (inject_Z (366 * 86400)). apply Rle_Qle. rewrite Q2R_inj, E. change (IZR (366 * 86400)) with 31622400%R. lra. }
  destruct H as [[H0 H]|[H|H]].
  - destruct (Rle_lt_dec (366 * 86400) (B2R soy)) as [L|L]; [now apply K|].
    rewrite (year_soy_exact y soy (b2q soy)); [|split; [exact F|lra]|exact E]. apply C23_last_half_second_rejected; [exact Hy| | |].
    + apply Rle_Qle. rewrite RMicromega.Q2R_0, E. exact H0.
    + change (366 * 86400)%Q with (inject_Z (366 * 86400)). apply q_bound. rewrite E. change (IZR (366 * 86400)) with 31622400%R. lra.
    + apply end_of_minute_q. now rewrite E.
  - now apply K.
  - unfold year_soy_to_datetime_f. rewrite year_soy_negative; [reflexivity|exact Hy|exact F|lra].
Qed.

(** 86400 s minus one unit in the last place is in the last half second of day 1; 1452.2 s is
    00:24:12, and 86400 s the next day. *)
Definition soy_1452_2 : f64 := f64_div (whole 14522) (whole 10).
Example C182_case :
  is_finite soy_1452_2 = true /\
  year_soy_to_datetime_f 2000 soy_1452_2 = Ok (day_us 730119 + sec_us 1452) /\
  year_soy_to_datetime_f 2000 (whole 86400) = Ok (day_us 730120) /\
  year_soy_to_datetime_f 2000 (@B754_finite 53 1024 false 5937362789990399 (-36) eq_refl) = Err ValueError.
Proof. split; [reflexivity|]. split; [vm_compute; reflexivity|]. split; vm_compute; reflexivity. Qed.

(** ** C183: seconds of day *)

(** Some whole number of microseconds is added: at least the value of the double up to 2^-33
    microseconds, and less than one more. *)
Theorem C183_microseconds_partial :
  forall sod, is_finite sod = true -> (0 <= B2R sod <= bpow radix2 40)%R ->
    exists us, 0 <= us /\ (B2R sod * 1000000 - bpow radix2 (-33) <= IZR us < B2R sod * 1000000 + 1)%R /\
      (forall s, B2R sod = IZR s -> us = sec_us s) /\
      forall year soy soy' yyddd date tod fmt, year = None \/ (soy = None /\ soy' = None) ->
        convert_time_f year soy yyddd (Some sod) date tod fmt = convert_time year soy' yyddd (Some (us # 1000000)) date tod fmt.
Proof.
  intros sod F [X0 XU]. assert (FI : fits sod). { split; [exact F|]. split; [exact X0|]. eapply Rle_trans; [exact XU|]. apply bpow_le. lia. }
  destruct (sod_add sod FI XU) as (us & A & U0 & (L & U) & C & S). exists us. split; [exact U0|]. split; [|split].
  - split; [|exact U]. eapply Rle_trans; [|exact L]. unfold u. change (bpow radix2 (-53)) with (/ 9007199254740992)%R. change (bpow radix2 (-33)) with (/ 8589934592)%R. lra.
  - intros s E. assert (Z : Zfloor (B2R sod) = s) by (rewrite E; apply Zfloor_IZR). rewrite Z in S. apply S. exact E.
  - now apply convert_sod_us.
Qed.

(** Without seconds of day nothing is added. *)
Theorem C183_no_seconds :
  forall year soy soy' yyddd date tod fmt, year = None \/ (soy = None /\ soy' = None) ->
    convert_time_f year soy yyddd None date tod fmt = convert_time year soy' yyddd None date tod fmt.
Proof. exact convert_no_sod. Qed.

(** [x] is the double a number [r] is read as. *)
Definition nearest_double (x : f64) (r : R) : Prop :=
  is_finite x = true /\ forall d : f64, is_finite d = true -> (Rabs (B2R x - r) <= Rabs (B2R d - r))%R.
Lemma div_nearest a b : Z.abs a <= 2 ^ 53 -> 1 <= b <= 2 ^ 53 -> nearest_double (f64_div (whole a) (whole b)) (IZR a / IZR b).
Proof.
  intros A B. destruct (whole_R a A) as (WA & FA & _). destruct (whole_R b ltac:(lia)) as (WB & FB & _).
  assert (B1 : (1 <= IZR b)%R) by (apply IZR_le; lia).
  destruct (div_R (whole a) (whole b) FA) as [D1 D2]; [rewrite WB; lra| |].
  - rewrite WA, WB. unfold Rdiv. rewrite Rabs_mult, <- abs_IZR. assert (I : (0 < / IZR b <= 1)%R). { split; [apply Rinv_0_lt_compat; lra|]. rewrite <- Rinv_1. apply Rinv_le; lra. }
    rewrite (Rabs_pos_eq (/ IZR b)) by lra. assert (0 <= IZR (Z.abs a) <= IZR (2 ^ 53))%R by (split; apply IZR_le; lia).
    apply Rle_trans with (IZR (2 ^ 53)); [|change (IZR (2 ^ 53)) with (bpow radix2 53); apply bpow_le; lia].
    apply Rle_trans with (IZR (Z.abs a) * 1)%R; [apply Rmult_le_compat_l|]; lra.
  - rewrite WA, WB in D1. split; [exact D2|]. intros d _. rewrite D1. 
    destruct (round_N_pt radix2 fexp64 (fun x => negb (Z.even x)) (IZR a / IZR b)) as [_ H]. apply H. apply isf_toR.
Qed.

(** A number of microseconds of two days, written in seconds: this many microseconds, or one
    more. *)
Theorem C183_written_microseconds_partial :
  forall k sod, 0 <= k <= 2 * 86400 * 1000000 -> nearest_double sod (IZR k / 1000000) ->
    exists us, (us = k \/ us = k + 1) /\
      forall year soy soy' yyddd date tod fmt, year = None \/ (soy = None /\ soy' = None) ->
        convert_time_f year soy yyddd (Some sod) date tod fmt = convert_time year soy' yyddd (Some (us # 1000000)) date tod fmt.
Proof.
  intros k sod K [F N]. assert (KR : (0 <= IZR k <= 172800000000)%R) by (split; apply IZR_le; lia).
  assert (D : (Rabs (B2R sod - IZR k / 1000000) <= / 10000000000)%R).
  { destruct (whole_R k ltac:(lia)) as (WA & FA & _). destruct (whole_R 1000000 ltac:(lia)) as (WB & FB & _).
    destruct (div_R (whole k) (whole 1000000) FA) as [D1 D2]; [rewrite WB; lra| |].
    - rewrite WA, WB, Rabs_pos_eq by lra. apply Rle_trans with (bpow radix2 40); [rewrite b40; lra|apply bpow_le; lia].
    - eapply Rle_trans; [apply (N _ D2)|]. rewrite D1, WA, WB. eapply Rle_trans; [apply rnd_bound|].
      assert (T : (tiny <= u)%R) by (apply bpow_le; lia). pose proof u_pos. rewrite Rabs_pos_eq by lra.
      assert (u * (IZR k / 1000000) <= u * 172800)%R by (apply Rmult_le_compat_l; lra).
      assert (u = / 9007199254740992)%R by reflexivity. lra. }
  apply Rabs_le_inv in D. destruct (Rlt_le_dec (B2R sod) 0) as [S|S].
  - exfalso. assert (Z : k = 0 \/ 1 <= k) by lia. destruct Z as [->|Z].
    + specialize (N (B754_zero false) eq_refl). change (B2R (B754_zero false)) with 0%R in N. replace (0 / 1000000)%R with 0%R in N by lra.
      rewrite !Rminus_0_r, Rabs_R0 in N. pose proof (Rabs_pos_lt (B2R sod) ltac:(lra)). lra.
    + apply IZR_le in Z. lra.
  - assert (B40 : (B2R sod <= bpow radix2 40)%R) by (rewrite b40; lra).
    destruct (C183_microseconds_partial sod F (conj S B40)) as (us & U0 & (L & U) & _ & C). exists us. split; [|exact C].
    change (bpow radix2 (-33)) with (/ 8589934592)%R in L.
    assert (k - 1 < us) by (apply lt_IZR; rewrite minus_IZR; lra). assert (us < k + 2) by (apply lt_IZR; rewrite plus_IZR; lra). lia.
Qed.

(** It may be one more: 3.000001 s after midnight are 3000002 microseconds. *)
Theorem C183_written_microseconds_refuted :
  exists sod date fmt, nearest_double sod (3000001 / 1000000) /\
    convert_time_f None None None (Some sod) (Some (s2l date)) None (s2l fmt) = Ok (day_us 730119 + 3000002).
Proof.
  exists (f64_div (whole 3000001) (whole 1000000)), "2000-01-01", "%Y-%m-%d %H:%M:%S". split; [apply (div_nearest 3000001 1000000); lia|vm_compute; reflexivity].
Qed.
(** It may also be below the double: the double nearest to 0.000003 is above it, the time is
    3 microseconds. *)
Theorem C183_rounded_up_refuted :
  exists sod, is_finite sod = true /\ (0 <= B2R sod)%R /\ (IZR 3 < B2R sod * 1000000)%R /\
    convert_time_f None None None (Some sod) (Some (s2l "2000-01-01")) None (s2l "%Y-%m-%d") = Ok (day_us 730119 + 3).
Proof.
  exists (@B754_finite 53 1024 false 7083549724304468 (-71) eq_refl). split; [reflexivity|].
  assert (E : B2R (@B754_finite 53 1024 false 7083549724304468 (-71) eq_refl) = (7083549724304468 * / 2361183241434822606848)%R).
  { unfold B2R, F2R, Defs.Fnum, Defs.Fexp. cbn [cond_Zopp bpow Z.opp]. reflexivity. }
  rewrite E. split; [lra|]. split; [lra|]. vm_compute. reflexivity.
Qed.

(** 75599.5 s on 1 January 2000. *)
Example C183_case :
  is_finite (f64_div (whole 151199) (whole 2)) = true /\
  convert_time_f None None None (Some (f64_div (whole 151199) (whole 2))) (Some (s2l "2000-01-01")) None (s2l "%Y-%m-%d SOD") = Ok (day_us 730119 + 75599500000) /\
  convert_time_f None None (Some (s2l "100001")) (Some (f64_div (whole 151199) (whole 2))) None None (s2l "YYDDD SOD") = Ok (day_us 730119 + 75599500000).
Proof. split; [reflexivity|]. split; vm_compute; reflexivity. Qed.

Print Assumptions C182_exact.
Print Assumptions C182_value.
Print Assumptions C182_whole_seconds.
Print Assumptions C182_nearest_second_partial.
Print Assumptions C182_rejected.
Print Assumptions C183_microseconds_partial.
Print Assumptions C183_no_seconds.
Print Assumptions C183_written_microseconds_partial.
Print Assumptions C183_written_microseconds_refuted.
Print Assumptions C183_rounded_up_refuted.
