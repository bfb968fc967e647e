(** C151-C153: the time conversions on IEEE binary64 numbers. *)
From Coq Require Import ZArith Reals Bool Lia Lra.
From Flocq Require Import Core BinarySingleNaN.
From Verif Require Import PyBase FloatModel FloatProofs FtimeModel FtimeSpec FtimeProofs FtimeProofs2 PropertiesFloat.
Open Scope R_scope.

(** ** C151: wrapping a double into a range *)

(** The whole numbers below stand for themselves. *)
Theorem C151_whole : forall z, (Z.abs z <= 2 ^ 53)%Z -> B2R (whole z) = IZR z /\ is_finite (whole z) = true.
Proof. exact whole_fin. Qed.

(** Limits and period whole, the period not wider than the range: the result differs from
    the input by whole periods, without any rounding, and is below the maximum, if the
    input is not below the minimum or the minimum is at most minus half a period. *)
Theorem C151_exact_partial :
  forall (mn mx r : Z) rng v,
    (- 2 ^ 50 <= mn <= 0)%Z -> (0 < mx <= 2 ^ 50)%Z -> (0 < r <= mx - mn)%Z -> (r <= 2 * mx)%Z ->
    rng = Some (whole r) \/ (rng = None /\ r = mx - mn)%Z ->
    is_finite v = true -> Rabs (B2R v) <= bpow radix2 50 ->
    IZR mn <= B2R v \/ (2 * mn <= - r)%Z ->
    exists w, returns (fun n => fix_range_f n v (whole mn) (whole mx) rng) w /\ is_finite w = true /\
      IZR mn <= B2R w < IZR mx /\ same_mod (IZR r) (B2R w) (B2R v).
Proof.
  intros mn mx r rng v M1 M2 M3 M4 HR F B HV.
  destruct (wrap_exact mn mx r ltac:(lia) ltac:(lia) ltac:(lia) ltac:(lia) ltac:(lia) rng v HR F B) as (w & N & W & FW & RW & _ & k & _ & X).
  destruct X as [X1 X2]. { destruct HV as [HV|HV]; [now left|right]. apply IZR_le in HV. rewrite mult_IZR, opp_IZR in HV. exact HV. }
  exists w. split; [exists N; exact W|]. split; [exact FW|]. split; [split; [apply RW|exact X2]|]. exists k. exact X1.
Qed.

(** Without that condition: one rounding, of at most half a unit in the last place of the
    period, and the maximum may be reached. *)
Theorem C151_any_partial :
  forall (mn mx r : Z) rng v,
    (- 2 ^ 50 <= mn <= 0)%Z -> (0 < mx <= 2 ^ 50)%Z -> (0 < r <= mx - mn)%Z -> (r <= 2 * mx)%Z ->
    rng = Some (whole r) \/ (rng = None /\ r = mx - mn)%Z ->
    is_finite v = true -> Rabs (B2R v) <= bpow radix2 50 ->
    exists w, returns (fun n => fix_range_f n v (whole mn) (whole mx) rng) w /\ is_finite w = true /\
      IZR mn <= B2R w <= IZR mx /\ near_mod (IZR r) (roundoff * IZR r) (B2R w) (B2R v).
Proof.
  intros mn mx r rng v M1 M2 M3 M4 HR F B.
  destruct (wrap_exact mn mx r ltac:(lia) ltac:(lia) ltac:(lia) ltac:(lia) ltac:(lia) rng v HR F B) as (w & N & W & FW & RW & _ & k & K & _).
  exists w. split; [exists N; exact W|]. split; [exact FW|]. split; [exact RW|]. exists k. exact K.
Qed.

(** The longitudes of hr2deg and slt2glon are wrapped exactly, whatever their sign. *)
Theorem C151_longitude :
  forall v, is_finite v = true -> Rabs (B2R v) <= bpow radix2 50 ->
    exists w, returns (fun n => fix_range_f n v (whole (-180)) (whole 360) (Some (whole 360))) w /\ is_finite w = true /\
      -180 <= B2R w < 360 /\ same_mod 360 (B2R w) (B2R v).
Proof. intros v F B. apply (C151_exact_partial (-180) 360 360); auto; try lia. Qed.

(** A negative time of day is not: 0 > v gives v + 24 rounded, here the maximum itself. *)
Theorem C151_exact_refuted :
  exists v w, is_finite v = true /\ -1 < B2R v < 0 /\ returns (fun n => fix_range_f n v (whole 0) (whole 24) None) w /\
    ~ same_mod 24 (B2R w) (B2R v) /\ ~ B2R w < 24.
Proof.
  destruct C17_binary64_refuted as (_ & _ & H).
  assert (V : -1 < B2R fm2p_60 < 0).
  { unfold fm2p_60, B2R, F2R, Defs.Fnum, Defs.Fexp. cbn [cond_Zopp bpow Z.opp]. change (Z.pow_pos radix2 112) with 5192296858534827628530496329220096%Z. lra. }
  exists fm2p_60. destruct (H 1%nat (le_n _)) as (w & W & E). exists w. split; [reflexivity|]. split; [exact V|]. split.
  - exists 1%nat. intros n Hn. destruct (H n Hn) as (w' & W' & E').
    assert (f0 = whole 0) as <- by (apply B2SF_inj; vm_compute; reflexivity). assert (f24 = whole 24) as <- by (apply B2SF_inj; vm_compute; reflexivity).
    rewrite W'. f_equal. apply B2R_inj.
    + destruct w'; try reflexivity; cbn in E'; lra.
    + destruct w; try reflexivity; cbn in E; lra.
    + congruence.
  - rewrite E. split; [|lra]. intros [k K].
    assert (k <= 1 \/ 2 <= k)%Z as [Q|Q] by lia; apply IZR_le in Q; lra.
Qed.

(** ** C152: hours and degrees in double precision *)

(** hr2deg returns a double of [-180, 360): 15 times the hours, up to whole turns, with
    one rounding; hours of [-12, 24) are not turned. *)
Theorem C152_hours_to_degrees :
  forall x, is_finite x = true -> Rabs (B2R x) <= bpow radix2 40 ->
    exists d, returns (fun n => hr2deg_f n x) d /\ is_finite d = true /\ -180 <= B2R d < 360 /\
      near_mod 360 (roundoff * (15 * Rabs (B2R x)) + bpow radix2 (-1075)) (B2R d) (15 * B2R x) /\
      (-12 <= B2R x < 24 -> Rabs (B2R d - 15 * B2R x) <= roundoff * (15 * Rabs (B2R x)) + bpow radix2 (-1075)).
Proof.
  intros x F B. destruct (hr2deg_ok x F B) as (d & D & FD & R & N & _). exists d. repeat (split; [assumption|]).
  intros Q. destruct (hr2deg_inside x F Q) as (d' & D' & _ & E). rewrite (returns_det _ _ _ D D'), E. apply rnd_err1.
  rewrite Rabs_mult, (Rabs_pos_eq 15) by lra. lra.
Qed.

(** Other limits: a range of less than a turn is replaced by the turn ending at its
    maximum. *)
Theorem C152_hours_to_degrees_limits :
  forall x mn mx, is_finite x = true -> Rabs (B2R x) <= bpow radix2 40 ->
    (- 2 ^ 50 <= mn <= 0)%Z -> (180 <= mx <= 2 ^ 50)%Z -> (mx - mn < 360 -> mx <= 360)%Z ->
    exists d, returns (fun n => hr2deg_lim n x mn mx) d /\ is_finite d = true /\
      Rmin (IZR mn) (IZR mx - 360) <= B2R d <= IZR mx /\
      ((360 <= mx - mn)%Z -> IZR mn <= B2R d) /\
      near_mod 360 (roundoff * (15 * Rabs (B2R x) + 360) + bpow radix2 (-1075)) (B2R d) (15 * B2R x).
Proof.
  intros x mn mx F B M1 M2 M3. destruct (hr2deg_lim_ok x mn mx F B ltac:(lia)) as (d & D & FD & R & N & _).
  exists d. split; [exact D|]. split; [exact FD|]. split; [|split; [|exact N]].
  - split; [|apply R]. eapply Rle_trans; [|apply R]. destruct (Z.ltb_spec (mx - mn) 360); [rewrite minus_IZR; apply Rmin_r|apply Rmin_l].
  - intros Q. destruct (Z.ltb_spec (mx - mn) 360); [lia|apply R].
Qed.

(** deg2hr returns a double of [0, 24]; the excluded 24 only for a negative input. *)
Theorem C152_degrees_to_hours_partial :
  forall x, is_finite x = true -> Rabs (B2R x) <= bpow radix2 50 ->
    exists h, returns (fun n => deg2hr_f n x) h /\ is_finite h = true /\ 0 <= B2R h <= 24 /\
      (0 <= B2R x -> B2R h < 24) /\
      near_mod 24 (roundoff * (Rabs (B2R x) / 15 + 24) + bpow radix2 (-1075)) (B2R h) (B2R x / 15).
Proof. intros x F B. destruct (deg2hr_ok x F B) as (h & D & FD & R & N & P & _). exists h. split; [exact D|]. split; [exact FD|]. split; [exact R|]. split; [intros Q; now apply P|exact N]. Qed.

(** Hours of a day to degrees and back: the same hours up to four units of roundoff, and
    still of the same day. *)
Theorem C152_hours_back_partial :
  forall x, is_finite x = true -> 0 <= B2R x < 24 ->
    exists d y, returns (fun n => hr2deg_f n x) d /\ returns (fun n => deg2hr_f n d) y /\ 0 <= B2R d < 360 /\ 0 <= B2R y < 24 /\
      Rabs (B2R d - 15 * B2R x) <= roundoff * (15 * B2R x) + bpow radix2 (-1075) /\
      Rabs (B2R y - B2R x) <= 4 * roundoff * B2R x + bpow radix2 (-1074).
Proof.
  intros x F H. destruct (hours_there_and_back x F H) as (d & y & D & Y & R1 & R2 & E1 & E2). exists d, y. repeat (split; [assumption|]).
  eapply Rle_trans; [exact E2|]. change (4 * roundoff) with (4 * u). apply Rplus_le_compat_l.
  unfold tiny. change 2 with (bpow radix2 1). rewrite <- bpow_plus. apply bpow_le. lia.
Qed.
Theorem C152_degrees_back_partial :
  forall x, is_finite x = true -> 0 <= B2R x < 360 ->
    exists h y, returns (fun n => deg2hr_f n x) h /\ returns (fun n => hr2deg_f n h) y /\ 0 <= B2R h < 24 /\ 0 <= B2R y < 360 /\
      Rabs (B2R h - B2R x / 15) <= roundoff * (B2R x / 15) + bpow radix2 (-1075) /\
      Rabs (B2R y - B2R x) <= 4 * roundoff * B2R x + bpow radix2 (-1070).
Proof.
  intros x F H. destruct (degrees_there_and_back x F H) as (d & y & D & Y & R1 & R2 & E1 & E2). exists d, y. repeat (split; [assumption|]).
  eapply Rle_trans; [exact E2|]. change (4 * roundoff) with (4 * u). apply Rplus_le_compat_l.
  unfold tiny. change 32 with (bpow radix2 5). rewrite <- bpow_plus. apply bpow_le. lia.
Qed.
(** Any hours and any degrees: the same up to whole turns. *)
Theorem C152_any_back_partial :
  (forall x, is_finite x = true -> Rabs (B2R x) <= bpow radix2 40 ->
    exists d y, returns (fun n => hr2deg_f n x) d /\ returns (fun n => deg2hr_f n d) y /\
      near_mod 24 (roundoff * (Rabs (B2R x) + 50)) (B2R y) (B2R x)) /\
  (forall x, is_finite x = true -> Rabs (B2R x) <= bpow radix2 50 ->
    exists h y, returns (fun n => deg2hr_f n x) h /\ returns (fun n => hr2deg_f n h) y /\
      near_mod 360 (roundoff * (Rabs (B2R x) + 721)) (B2R y) (B2R x)).
Proof. split; [exact hours_round|exact degrees_round]. Qed.

(** The hours 13.354630125742304 and the degrees 126.59126725084413 do not come back. *)
Definition some_hours : f64 := @B754_finite 53 1024 false 7517988407245480 (-49) eq_refl.
Definition some_degrees : f64 := @B754_finite 53 1024 false 8908068500300945 (-46) eq_refl.
Lemma fix_inside (x mn mx : f64) rng : f64_le mx mn = false -> f64_le (match rng with Some r => r | None => f64_sub mx mn end) (B754_zero false) = false ->
  f64_le mx x = false -> f64_lt x mn = false -> returns (fun n => fix_range_f n x mn mx rng) x.
Proof.
  intros A B C D. exists 0%nat. intros n _. unfold fix_range_f. rewrite A, B.
  assert (E : sub_loop_f n mx (match rng with Some r => r | None => f64_sub mx mn end) x = Ok x) by (destruct n; cbn; now rewrite C).
  rewrite E. cbn [bind]. destruct n; cbn; now rewrite D.
Qed.
Lemma h2d_some : returns (fun n => hr2deg_f n some_hours) (f64_mul some_hours (whole 15)).
Proof. apply fix_inside; vm_compute; reflexivity. Qed.
Lemma h2d_some_back : returns (fun n => deg2hr_f n (f64_mul some_hours (whole 15))) (f64_div (f64_mul some_hours (whole 15)) (whole 15)).
Proof. apply fix_inside; vm_compute; reflexivity. Qed.
Lemma d2h_some : returns (fun n => deg2hr_f n some_degrees) (f64_div some_degrees (whole 15)).
Proof. apply fix_inside; vm_compute; reflexivity. Qed.
Lemma d2h_some_back : returns (fun n => hr2deg_f n (f64_div some_degrees (whole 15))) (f64_mul (f64_div some_degrees (whole 15)) (whole 15)).
Proof. apply fix_inside; vm_compute; reflexivity. Qed.
Lemma differ a b : f64_lt a b = true -> is_finite a = true -> is_finite b = true -> B2R b <> B2R a.
Proof. intros H A B. apply lt_true in H; try assumption. lra. Qed.

Theorem C152_back_refuted :
  (exists x d y, is_finite x = true /\ 0 <= B2R x < 24 /\ returns (fun n => hr2deg_f n x) d /\ returns (fun n => deg2hr_f n d) y /\ B2R y <> B2R x) /\
  (exists x h y, is_finite x = true /\ 0 <= B2R x < 360 /\ returns (fun n => deg2hr_f n x) h /\ returns (fun n => hr2deg_f n h) y /\ B2R y <> B2R x).
Proof.
  split.
  - exists some_hours, (f64_mul some_hours (whole 15)), (f64_div (f64_mul some_hours (whole 15)) (whole 15)).
    split; [reflexivity|]. split.
    { unfold some_hours, B2R, F2R, Defs.Fnum, Defs.Fexp. cbn [cond_Zopp bpow Z.opp]. change (Z.pow_pos radix2 49) with 562949953421312%Z. lra. }
    split; [exact h2d_some|]. split; [exact h2d_some_back|]. apply differ; vm_compute; reflexivity.
  - exists some_degrees, (f64_div some_degrees (whole 15)), (f64_mul (f64_div some_degrees (whole 15)) (whole 15)).
    split; [reflexivity|]. split.
    { unfold some_degrees, B2R, F2R, Defs.Fnum, Defs.Fexp. cbn [cond_Zopp bpow Z.opp]. change (Z.pow_pos radix2 46) with 70368744177664%Z. lra. }
    split; [exact d2h_some|]. split; [exact d2h_some_back|]. apply differ; vm_compute; reflexivity.
Qed.

(** ** C153: time of day and solar local time in double precision *)

(** The hours of the day are within 2^-47 of the true ones, in [0, 24), and different
    microseconds of the day keep their order. *)
Theorem C153_hours_of_day :
  forall h m s us, time_of_day h m s us ->
    let x := datetime2hr_f h m s us in
    is_finite x = true /\ 0 <= B2R x < 24 /\ Rabs (B2R x - hours_exact h m s us) <= bpow radix2 (-47) /\
    (forall h' m' s' us', time_of_day h' m' s' us' ->
      (B2R x < B2R (datetime2hr_f h' m' s' us') <-> (micros_of_day h m s us < micros_of_day h' m' s' us')%Z)).
Proof.
  intros h m s us T x. destruct (hours_of_day_ok h m s us T) as (F & P & E). split; [exact F|]. split; [split; [exact P|now apply hours_of_day_below]|]. split.
  - eapply Rle_trans; [exact E|]. change 64 with (bpow radix2 6). unfold u. rewrite <- bpow_plus. apply bpow_le. lia.
  - intros h' m' s' us' T'. split; [|now apply hours_of_day_lt]. intros L.
    destruct (Z_lt_le_dec (micros_of_day h m s us) (micros_of_day h' m' s' us')) as [Q|Q]; [exact Q|exfalso].
    apply Z.lt_eq_cases in Q. destruct Q as [Q|Q].
    + pose proof (hours_of_day_lt _ _ _ _ _ _ _ _ T' T Q). unfold x in L. lra.
    + assert (h = h' /\ m = m' /\ s = s' /\ us = us')%Z as (-> & -> & -> & ->) by (unfold micros_of_day in Q; destruct T as (? & ? & ? & ?); destruct T' as (? & ? & ? & ?); lia).
      unfold x in L. lra.
Qed.

(** The longitude of a solar local time; not turned if that is within the limits. *)
Theorem C153_longitude :
  forall slt h m s us, is_finite slt = true -> Rabs (B2R slt) <= bpow radix2 39 -> time_of_day h m s us ->
    exists g, returns (fun n => slt2glon_f n slt (datetime2hr_f h m s us)) g /\ is_finite g = true /\ -180 <= B2R g < 360 /\
      near_mod 360 (roundoff * (31 * Rabs (B2R slt) + 1735)) (B2R g) (15 * (B2R slt - hours_exact h m s us)) /\
      (0 <= B2R slt < 24 -> -12 <= B2R slt - B2R (datetime2hr_f h m s us) ->
        Rabs (B2R g - 15 * (B2R slt - hours_exact h m s us)) <= 2000 * roundoff).
Proof.
  intros slt h m s us F B T. destruct (hours_of_day_ok h m s us T) as (FU & P & E). pose proof (hours_of_day_below h m s us T) as L.
  destruct (slt2glon_ok slt _ F FU ltac:(lra) B) as (g & G & FG & RG & NG). exists g. split; [exact G|]. split; [exact FG|]. split; [exact RG|]. split.
  2: { intros Q1 Q2. destruct (slt2glon_inside slt _ F FU ltac:(lra) Q1 Q2) as (g' & G' & E'). rewrite (returns_det _ _ _ G G').
       apply Rabs_le. apply Rabs_le_inv in E. apply Rabs_le_inv in E'. change roundoff with u. rewrite u_val in *. lra. }
  eapply near_weak; [|eapply near_trans; [exact NG|apply near_up; apply near_close; instantiate (1 := 64 * u)]].
  - change roundoff with u. rewrite u_val. lra.
  - replace (B2R slt - B2R (datetime2hr_f h m s us) - (B2R slt - hours_exact h m s us)) with (- (B2R (datetime2hr_f h m s us) - hours_exact h m s us)) by ring.
    rewrite Rabs_Ropp. exact E.
Qed.
(** The solar local time of a longitude: always below 24. *)
Theorem C153_local_time :
  forall glon h m s us, is_finite glon = true -> Rabs (B2R glon) <= bpow radix2 50 -> time_of_day h m s us ->
    exists y, returns (fun n => glon2slt_f n glon (datetime2hr_f h m s us)) y /\ is_finite y = true /\ 0 <= B2R y < 24 /\
      near_mod 24 (roundoff * (Rabs (B2R glon) / 15 + 137)) (B2R y) (B2R glon / 15 + hours_exact h m s us).
Proof.
  intros glon h m s us F B T. destruct (hours_of_day_ok h m s us T) as (FU & P & E). pose proof (hours_of_day_below h m s us T) as L.
  destruct (glon2slt_ok glon _ F FU ltac:(lra) B) as (y & Y & FY & RY & NY). exists y. split; [exact Y|]. split; [exact FY|]. split; [exact RY|].
  eapply near_weak; [|eapply near_trans; [exact NY|apply near_close; instantiate (1 := 64 * u)]].
  - change roundoff with u. rewrite u_val. lra.
  - replace (B2R glon / 15 + B2R (datetime2hr_f h m s us) - (B2R glon / 15 + hours_exact h m s us)) with (B2R (datetime2hr_f h m s us) - hours_exact h m s us) by ring. exact E.
Qed.

(** There and back at one time. *)
Theorem C153_back_partial :
  forall h m s us, time_of_day h m s us ->
  (forall slt, is_finite slt = true -> Rabs (B2R slt) <= bpow radix2 39 ->
    exists g y, returns (fun n => slt2glon_f n slt (datetime2hr_f h m s us)) g /\ returns (fun n => glon2slt_f n g (datetime2hr_f h m s us)) y /\
      0 <= B2R y < 24 /\ near_mod 24 (roundoff * (3 * Rabs (B2R slt) + 150)) (B2R y) (B2R slt)) /\
  (forall glon, is_finite glon = true -> Rabs (B2R glon) <= bpow radix2 50 ->
    exists s' y, returns (fun n => glon2slt_f n glon (datetime2hr_f h m s us)) s' /\ returns (fun n => slt2glon_f n s' (datetime2hr_f h m s us)) y /\
      -180 <= B2R y < 360 /\ near_mod 360 (roundoff * (Rabs (B2R glon) + 2614)) (B2R y) (B2R glon)).
Proof.
  intros h m s us T. destruct (hours_of_day_ok h m s us T) as (FU & P & E). pose proof (hours_of_day_below h m s us T) as L. split.
  - intros slt F B. apply slt_round; auto; lra.
  - intros glon F B. apply glon_round; auto; lra.
Qed.

(** At six hours the local time 0.1 comes back as 0.10000000000000142. *)
Definition tenth : f64 := @B754_finite 53 1024 false 7205759403792794 (-56) eq_refl.
Definition six := datetime2hr_f 6 0 0 0.
Theorem C153_back_refuted :
  exists slt h m s us g y, is_finite slt = true /\ 0 <= B2R slt < 24 /\ time_of_day h m s us /\
    returns (fun n => slt2glon_f n slt (datetime2hr_f h m s us)) g /\ returns (fun n => glon2slt_f n g (datetime2hr_f h m s us)) y /\ B2R y <> B2R slt.
Proof.
  set (g := f64_mul (f64_sub tenth six) (whole 15)).
  set (w := f64_add (f64_div g (whole 15)) (whole 24)). set (y := f64_sub (f64_add w six) (whole 24)).
  exists tenth, 6%Z, 0%Z, 0%Z, 0%Z, g, y. split; [reflexivity|]. split.
  { unfold tenth, B2R, F2R, Defs.Fnum, Defs.Fexp. cbn [cond_Zopp bpow Z.opp]. change (Z.pow_pos radix2 56) with 72057594037927936%Z. lra. }
  split; [unfold time_of_day; lia|]. split; [|split].
  - unfold slt2glon_f. apply (returns_bind (fun n => hr2deg_f n (f64_sub tenth six))) with (a := g); apply fix_inside; vm_compute; reflexivity.
  - unfold glon2slt_f. apply (returns_bind (fun n => deg2hr_f n g)) with (a := w).
    + exists 1%nat. intros n Hn. destruct n as [|n]; [lia|]. unfold deg2hr_f, fix_range_f.
      replace (f64_le (whole 24) (whole 0)) with false by (vm_compute; reflexivity). cbv iota zeta.
      replace (f64_sub (whole 24) (whole 0)) with (whole 24) by (apply B2SF_inj; vm_compute; reflexivity).
      replace (f64_le (whole 24) (B754_zero false)) with false by (vm_compute; reflexivity). cbv iota. cbn [sub_loop_f].
      replace (f64_le (whole 24) (f64_div g (whole 15))) with false by (vm_compute; reflexivity). cbn [bind add_loop_f].
      replace (f64_lt (f64_div g (whole 15)) (whole 0)) with true by (vm_compute; reflexivity).
      fold w. replace (f64_lt w (whole 0)) with false by (vm_compute; reflexivity). 
      destruct n; cbn [add_loop_f]; replace (f64_lt w (whole 0)) with false by (vm_compute; reflexivity); reflexivity.
    + exists 1%nat. intros n Hn. destruct n as [|n]; [lia|]. unfold fix_range_f. fold six.
      replace (f64_le (whole 24) (whole 0)) with false by (vm_compute; reflexivity). cbv iota zeta.
      replace (f64_sub (whole 24) (whole 0)) with (whole 24) by (apply B2SF_inj; vm_compute; reflexivity).
      replace (f64_le (whole 24) (B754_zero false)) with false by (vm_compute; reflexivity). cbv iota. cbn [sub_loop_f].
      replace (f64_le (whole 24) (f64_add w six)) with true by (vm_compute; reflexivity). fold y.
      assert (E : sub_loop_f n (whole 24) (whole 24) y = Ok y) by (destruct n; cbn [sub_loop_f]; replace (f64_le (whole 24) y) with false by (vm_compute; reflexivity); reflexivity).
      rewrite E. cbn [bind add_loop_f]. replace (f64_lt y (whole 0)) with false by (vm_compute; reflexivity). reflexivity.
  - apply differ; vm_compute; reflexivity.
Qed.

(** ** Concrete cases *)
Definition is_float (r : res f64) (m : positive) (e : Z) : Prop :=
  match r with Ok y => B2SF y = SpecFloat.S754_finite false m e | Err _ => False end.
Example C151_case : (* -700 is wrapped to 20 *)
  is_finite (whole (-700)) = true /\ Rabs (B2R (whole (-700))) <= bpow radix2 50 /\
  is_float (fix_range_f 5 (whole (-700)) (whole (-180)) (whole 360) (Some (whole 360))) 5629499534213120 (-48).
Proof.
  destruct (whole_fin (-700) ltac:(lia)) as [E F]. split; [exact F|]. split.
  - rewrite E, Rabs_left by lra. change (bpow radix2 50) with 1125899906842624. lra.
  - vm_compute. reflexivity.
Qed.
Example C152_case : (* six hours are 90 degrees *)
  is_float (hr2deg_f 5 (whole 6)) 6333186975989760 (-46) /\ is_float (deg2hr_f 5 (whole 90)) 6755399441055744 (-50) /\ 0 <= B2R (whole 6) < 24.
Proof. split; [vm_compute; reflexivity|]. split; [vm_compute; reflexivity|]. destruct (whole_fin 6 ltac:(lia)) as [E _]. rewrite E. lra. Qed.
Example C153_case : (* 13:30 is 13.5; the local time at 30 degrees east is 15.5 *)
  time_of_day 13 30 0 0 /\ B2SF (datetime2hr_f 13 30 0 0) = SpecFloat.S754_finite false 7599824371187712 (-49) /\
  is_float (glon2slt_f 5 (whole 30) (datetime2hr_f 13 30 0 0)) 8725724278030336 (-49).
Proof. split; [unfold time_of_day; lia|]. split; vm_compute; reflexivity. Qed.

Print Assumptions C151_whole.
Print Assumptions C151_exact_partial.
Print Assumptions C151_any_partial.
Print Assumptions C151_longitude.
Print Assumptions C151_exact_refuted.
Print Assumptions C152_hours_to_degrees.
Print Assumptions C152_hours_to_degrees_limits.
Print Assumptions C152_degrees_to_hours_partial.
Print Assumptions C152_hours_back_partial.
Print Assumptions C152_degrees_back_partial.
Print Assumptions C152_any_back_partial.
Print Assumptions C152_back_refuted.
Print Assumptions C153_hours_of_day.
Print Assumptions C153_longitude.
Print Assumptions C153_local_time.
Print Assumptions C153_back_partial.
Print Assumptions C153_back_refuted.
