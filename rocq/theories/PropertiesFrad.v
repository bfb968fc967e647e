(** C179-C180: hours and radians on IEEE binary64 numbers. *)
From Coq Require Import ZArith Reals Bool Lia Lra.
From Flocq Require Import Core BinarySingleNaN.
From Verif Require Import PyBase FloatModel FloatProofs FtimeModel FtimeSpec FtimeProofs FtimeProofs2 PropertiesFtime FradModel FradProofs FradTurns.
Open Scope R_scope.

(** ** C179: hr2rad *)

(** np.pi is the double nearest to pi, and lies below it. *)
Theorem C179_pi : is_finite pi_f = true /\ B2R pi_f < PI /\ (forall d : f64, Rabs (B2R pi_f - PI) <= Rabs (B2R d - PI)).
Proof.
  destruct pi_R as [PE PF]. pose proof p_pi as P. split; [exact PF|]. rewrite PE. split; [lra|]. intros d.
  rewrite Rabs_left1 by lra. destruct (Rle_lt_dec (B2R d) p) as [L|L]; [rewrite Rabs_left1; lra|].
  destruct (Rlt_le_dec (B2R d) (7074237752028441 * / 2251799813685248)) as [H|H].
  - exfalso. pose proof (below_gen (B2R d) 7074237752028441 (-51) (isf_toR d) ltac:(lia)) as G.
    change (bpow radix2 (52 + -51)) with 2 in G. change (bpow radix2 (-51)) with (/ 2251799813685248) in G. unfold p in L. lra.
  - unfold p in *. rewrite Rabs_pos_eq; lra.
Qed.

(** hr2rad returns for all hours up to 2^40 either way, in [0, 2 pi). *)
Theorem C179_range :
  forall x, is_finite x = true -> Rabs (B2R x) <= bpow radix2 40 ->
    exists w, returns (fun n => hr2rad_f n x) w /\ is_finite w = true /\ 0 <= B2R w < 2 * PI /\ B2R w <= 2 * B2R pi_f /\
      (0 <= B2R x -> B2R w < 2 * B2R pi_f).
Proof.
  intros x F B. destruct (hr2rad_any x F B) as (w & W & FW & RW & UW & _). destruct pi_R as [PE _]. rewrite PE. pose proof p_pi.
  exists w. split; [exact W|]. split; [exact FW|]. split; [lra|]. split; [lra|exact UW].
Qed.

(** The hours of a day: pi / 12 times the hours, up to two and a half units of roundoff. *)
Theorem C179_day_partial :
  forall x, is_finite x = true -> 0 <= B2R x < 24 ->
    exists w, returns (fun n => hr2rad_f n x) w /\ is_finite w = true /\ 0 <= B2R w < 2 * B2R pi_f /\
      Rabs (B2R w - PI / 12 * B2R x) <= 5 / 2 * roundoff * (PI / 12 * B2R x) + bpow radix2 (-1073).
Proof.
  intros x F H. assert (B : Rabs (B2R x) <= bpow radix2 40) by (rewrite Rabs_pos_eq, b40; lra).
  destruct (hr2rad_any x F B) as (w & W & FW & RW & UW & SW). destruct pi_R as [PE _]. rewrite PE.
  exists w. split; [exact W|]. split; [exact FW|]. split; [split; [lra|apply UW; lra]|].
  destruct (hr_quot x F B) as (Q1 & _). rewrite (SW H), Q1. pose proof (hr_err_pi (B2R x)) as E. rewrite (Rabs_pos_eq (B2R x)) in E by lra.
  change roundoff with u. replace (bpow radix2 (-1073)) with (4 * tiny) by (unfold tiny; change 4 with (bpow radix2 2); now rewrite <- bpow_plus).
  pose proof tiny_pos. lra.
Qed.

(** Ten days either way: the same up to whole turns. *)
Theorem C179_turns_partial :
  forall x, is_finite x = true -> Rabs (B2R x) <= 240 ->
    exists w, returns (fun n => hr2rad_f n x) w /\
      near_mod (2 * PI) (roundoff * (3 * (PI / 12 * Rabs (B2R x)) + 5 * PI) + bpow radix2 (-1073)) (B2R w) (PI / 12 * B2R x).
Proof.
  intros x F B. destruct (hr2rad_near x F B) as (w & W & K). exists w. split; [exact W|].
  replace (bpow radix2 (-1073)) with (4 * tiny) by (unfold tiny; change 4 with (bpow radix2 2); now rewrite <- bpow_plus). exact K.
Qed.

(** With max_range=np.pi the angle is in [-np.pi, np.pi), and whole turns are taken off or
    added without any rounding. *)
Theorem C179_signed_partial :
  forall x, is_finite x = true -> Rabs (B2R x) <= 240 ->
    exists w, returns (fun n => hr2rad_to n x pi_f) w /\ is_finite w = true /\ - B2R pi_f <= B2R w < B2R pi_f /\
      near_mod (2 * PI) (roundoff * (3 * (PI / 12 * Rabs (B2R x)) + 5 * PI) + bpow radix2 (-1073)) (B2R w) (PI / 12 * B2R x).
Proof.
  intros x F B. destruct (signed_near x F B) as (w & W & FW & RW & K). destruct pi_R as [PE _]. rewrite PE. exists w. repeat (split; [assumption|]).
  replace (bpow radix2 (-1073)) with (4 * tiny) by (unfold tiny; change 4 with (bpow radix2 2); now rewrite <- bpow_plus). exact K.
Qed.

(** A negative time just before midnight gives 2.0 * np.pi itself, the excluded maximum. *)
Theorem C179_maximum_refuted :
  exists x w, is_finite x = true /\ -1 < B2R x < 0 /\ returns (fun n => hr2rad_f n x) w /\ B2R w = 2 * B2R pi_f.
Proof.
  assert (V : -1 < B2R PropertiesFloat.fm2p_60 < 0).
  { unfold PropertiesFloat.fm2p_60, B2R, F2R, Defs.Fnum, Defs.Fexp. cbn [cond_Zopp bpow Z.opp]. change (Z.pow_pos radix2 112) with 5192296858534827628530496329220096%Z. lra. }
  exists PropertiesFloat.fm2p_60, turn_f. split; [reflexivity|]. split; [exact V|]. destruct pi_R as [PE _]. rewrite PE. split; [|apply turn_R].
  exists 1%nat. intros n Hn. unfold hr2rad_f, hr2rad_to. rewrite limits_ok.
  set (v := f64_div (f64_mul PropertiesFloat.fm2p_60 pi_f) (whole 12)).
  assert (A : f64_le turn_f v = false) by (vm_compute; reflexivity).
  assert (A2 : sub_loop_f n turn_f turn_f v = Ok v) by (destruct n; cbn [sub_loop_f]; now rewrite A). rewrite A2. cbn [bind].
  assert (C : f64_lt v (B754_zero false) = true) by (vm_compute; reflexivity).
  assert (D : f64_add v turn_f = turn_f) by (apply B2SF_inj; vm_compute; reflexivity).
  assert (E : f64_lt turn_f (B754_zero false) = false) by (vm_compute; reflexivity).
  destruct n as [|n]; [lia|]. cbn [add_loop_f]. rewrite C, D. destruct n; cbn [add_loop_f]; now rewrite E.
Qed.

(** Six hours are a quarter turn: 1.5707963267948966. *)
Definition half_pi_f : f64 := @B754_finite 53 1024 false 7074237752028440 (-52) eq_refl.
Example C179_case : is_finite (whole 6) = true /\ Rabs (B2R (whole 6)) <= 240 /\ returns (fun n => hr2rad_f n (whole 6)) half_pi_f.
Proof.
  destruct (whole_R 6 ltac:(lia)) as (A & B & _). split; [exact B|]. split; [rewrite A, Rabs_pos_eq; lra|].
  assert (E : f64_div (f64_mul (whole 6) pi_f) (whole 12) = half_pi_f) by (apply B2SF_inj; vm_compute; reflexivity).
  unfold hr2rad_f, hr2rad_to. rewrite E. apply fix_inside; vm_compute; reflexivity.
Qed.

(** ** C180: rad2hr, and there and back *)

(** rad2hr returns for all angles up to 2^40 either way, in [0, 24], the excluded 24 only for
    a negative angle: 12 / pi times the angle up to whole days. *)
Theorem C180_radians_to_hours_partial :
  forall x, is_finite x = true -> Rabs (B2R x) <= bpow radix2 40 ->
    exists h, returns (fun n => rad2hr_f n x) h /\ is_finite h = true /\ 0 <= B2R h <= 24 /\ (0 <= B2R x -> B2R h < 24) /\
      near_mod 24 (roundoff * (3 * (12 / PI * Rabs (B2R x)) + 24) + bpow radix2 (-1073)) (B2R h) (12 / PI * B2R x).
Proof.
  intros x F B. destruct (rad2hr_any x F B) as (h & H & FH & RH & UH & NH & _). exists h.
  split; [exact H|]. split; [exact FH|]. split; [exact RH|]. split; [exact UH|]. eapply near_weak; [|exact NH].
  replace (bpow radix2 (-1073)) with (4 * tiny) by (unfold tiny; change 4 with (bpow radix2 2); now rewrite <- bpow_plus).
  change roundoff with u. pose proof tiny_pos. lra.
Qed.

(** The hours of a day to radians and back: the same hours up to five units of roundoff, and
    still of the same day. *)
Theorem C180_hours_back_partial :
  forall x, is_finite x = true -> 0 <= B2R x < 24 ->
    exists w y, returns (fun n => hr2rad_f n x) w /\ returns (fun n => rad2hr_f n w) y /\ 0 <= B2R w < 2 * B2R pi_f /\ 0 <= B2R y < 24 /\
      Rabs (B2R y - B2R x) <= 5 * roundoff * B2R x + bpow radix2 (-1070).
Proof.
  intros x F H. assert (B : Rabs (B2R x) <= bpow radix2 40) by (rewrite Rabs_pos_eq, b40; lra). pose proof p_val as PV.
  destruct (hr2rad_any x F B) as (w & W & FW & RW & UW & SW). destruct pi_R as [PE _]. rewrite PE.
  assert (R : 0 <= B2R w < 2 * p) by (split; [lra|apply UW; lra]).
  assert (B2 : Rabs (B2R w) <= bpow radix2 40) by (rewrite Rabs_pos_eq, b40; lra).
  destruct (rad2hr_any w FW B2) as (y & Y & FY & RY & UY & _ & SY). exists w, y. split; [exact W|]. split; [exact Y|]. split; [exact R|].
  split; [split; [lra|apply UY; lra]|].
  destruct (hr_quot x F B) as (Q1 & _). destruct (rad_quot w FW B2) as (Q2 & _). rewrite (SY R), Q2, (SW H), Q1.
  pose proof (back_hr (B2R x) (proj1 H)) as E. cbv zeta in E. change roundoff with u.
  replace (bpow radix2 (-1070)) with (32 * tiny) by (unfold tiny; change 32 with (bpow radix2 5); now rewrite <- bpow_plus). pose proof tiny_pos. lra.
Qed.
(** The angles of a turn to hours and back. *)
Theorem C180_radians_back_partial :
  forall w, is_finite w = true -> 0 <= B2R w < 2 * B2R pi_f ->
    exists h y, returns (fun n => rad2hr_f n w) h /\ returns (fun n => hr2rad_f n h) y /\ 0 <= B2R h < 24 /\ 0 <= B2R y < 2 * B2R pi_f /\
      Rabs (B2R y - B2R w) <= 5 * roundoff * B2R w + bpow radix2 (-1070).
Proof.
  intros w F H. destruct pi_R as [PE _]. rewrite PE in *. pose proof p_val as PV.
  assert (B : Rabs (B2R w) <= bpow radix2 40) by (rewrite Rabs_pos_eq, b40; lra).
  destruct (rad2hr_any w F B) as (h & W & FW & RW & UW & _ & SW).
  assert (R : 0 <= B2R h < 24) by (split; [lra|apply UW; lra]).
  assert (B2 : Rabs (B2R h) <= bpow radix2 40) by (rewrite Rabs_pos_eq, b40; lra).
  destruct (hr2rad_any h FW B2) as (y & Y & FY & RY & UY & SY). exists h, y. split; [exact W|]. split; [exact Y|]. split; [exact R|].
  split; [split; [lra|apply UY; lra]|].
  destruct (rad_quot w F B) as (Q1 & _). destruct (hr_quot h FW B2) as (Q2 & _). rewrite (SY R), Q2, (SW H), Q1.
  pose proof (back_rad (B2R w) (proj1 H)) as E. cbv zeta in E. change roundoff with u.
  replace (bpow radix2 (-1070)) with (32 * tiny) by (unfold tiny; change 32 with (bpow radix2 5); now rewrite <- bpow_plus). pose proof tiny_pos. lra.
Qed.

(** The hours 5.241927291094518 and the angle 0.8442354444173306 do not come back. *)
Definition other_hours : f64 := @B754_finite 53 1024 false 5901885448719126 (-50) eq_refl.
Definition some_angle : f64 := @B754_finite 53 1024 false 7604196865781710 (-53) eq_refl.
Lemma radians_of x : f64_le turn_f (f64_div (f64_mul x pi_f) (whole 12)) = false -> f64_lt (f64_div (f64_mul x pi_f) (whole 12)) (f64_sub turn_f turn_f) = false ->
  returns (fun n => hr2rad_f n x) (f64_div (f64_mul x pi_f) (whole 12)).
Proof. intros A B. apply fix_inside; [vm_compute; reflexivity|vm_compute; reflexivity|exact A|exact B]. Qed.
Lemma hours_of x : f64_le (whole 24) (f64_div (f64_mul x (whole 12)) pi_f) = false -> f64_lt (f64_div (f64_mul x (whole 12)) pi_f) (whole 0) = false ->
  returns (fun n => rad2hr_f n x) (f64_div (f64_mul x (whole 12)) pi_f).
Proof. intros A B. apply fix_inside; [vm_compute; reflexivity|vm_compute; reflexivity|exact A|exact B]. Qed.

Theorem C180_back_refuted :
  (exists x w y, is_finite x = true /\ 0 <= B2R x < 24 /\ returns (fun n => hr2rad_f n x) w /\ returns (fun n => rad2hr_f n w) y /\ B2R y <> B2R x) /\
  (exists w h y, is_finite w = true /\ 0 <= B2R w < 2 * B2R pi_f /\ returns (fun n => rad2hr_f n w) h /\ returns (fun n => hr2rad_f n h) y /\ B2R y <> B2R w).
Proof.
  split.
  - eexists other_hours, _, _. split; [reflexivity|]. split.
    { unfold other_hours, B2R, F2R, Defs.Fnum, Defs.Fexp. cbn [cond_Zopp bpow Z.opp]. change (Z.pow_pos radix2 50) with 1125899906842624%Z. lra. }
    split; [apply radians_of; vm_compute; reflexivity|]. split; [apply hours_of; vm_compute; reflexivity|].
    apply not_eq_sym. apply differ; vm_compute; reflexivity.
  - eexists some_angle, _, _. split; [reflexivity|]. split.
    { destruct pi_R as [PE _]. rewrite PE. pose proof p_val. unfold some_angle, B2R, F2R, Defs.Fnum, Defs.Fexp. cbn [cond_Zopp bpow Z.opp]. change (Z.pow_pos radix2 53) with 9007199254740992%Z. lra. }
    split; [apply hours_of; vm_compute; reflexivity|]. split; [apply radians_of; vm_compute; reflexivity|].
    apply not_eq_sym. apply differ; vm_compute; reflexivity.
Qed.

(** 1.5707963267948966 radians are six hours, and hold the hypotheses above. *)
Example C180_case : is_finite half_pi_f = true /\ 0 <= B2R half_pi_f < 2 * B2R pi_f /\ returns (fun n => rad2hr_f n half_pi_f) (whole 6).
Proof.
  split; [reflexivity|]. split.
  { destruct pi_R as [PE _]. rewrite PE. pose proof p_val. unfold half_pi_f, B2R, F2R, Defs.Fnum, Defs.Fexp. cbn [cond_Zopp bpow Z.opp]. change (Z.pow_pos radix2 52) with 4503599627370496%Z. lra. }
  assert (E : f64_div (f64_mul half_pi_f (whole 12)) pi_f = whole 6) by (apply B2SF_inj; vm_compute; reflexivity).
  rewrite <- E. apply hours_of; vm_compute; reflexivity.
Qed.

Print Assumptions C179_pi.
Print Assumptions C179_range.
Print Assumptions C179_day_partial.
Print Assumptions C179_turns_partial.
Print Assumptions C179_signed_partial.
Print Assumptions C179_maximum_refuted.
Print Assumptions C180_radians_to_hours_partial.
Print Assumptions C180_hours_back_partial.
Print Assumptions C180_radians_back_partial.
Print Assumptions C180_back_refuted.
