(** C22-C26, C76-C78: time formats. *)
From Coq Require Import String Ascii ZArith QArith Qround Qabs List Bool Lia Lqa.
From Verif Require Import PyBase TimeModel TimeSpec TimeProofs TimeProofs2 TimeProofs3 TimeProofs4.
Import ListNotations.
Open Scope string_scope.
Open Scope list_scope.
Open Scope Z_scope.

(** ** C22: year and whole seconds of year *)
Lemma whole_parts s d h m x : soy_parts (inject_Z s) d h m x ->
  exists k, 0 <= k < 60 /\ (x == inject_Z k)%Q /\ s = d * 86400 + h * 3600 + m * 60 + k.
Proof.
  intros [P1 P2 P3 P4 P5]. exists (s - (d * 86400 + h * 3600 + m * 60)).
  assert (E : (x == inject_Z (s - (d * 86400 + h * 3600 + m * 60)))%Q).
  { unfold Zminus. rewrite inject_Z_plus, inject_Z_opp. lra. }
  rewrite E in P3, P4. change 0%Q with (inject_Z 0) in P3. change 60%Q with (inject_Z 60) in P4.
  rewrite <- Zle_Qle in P3. rewrite <- Zlt_Qlt in P4. split; [lia|]. split; [exact E|lia].
Qed.

Lemma round_whole x k : (x == inject_Z k)%Q -> round_half_even x = k.
Proof.
  intros E. unfold round_half_even. 
  assert (F : Qfloor x = k) by (rewrite (Qfloor_comp _ _ E); apply Qfloor_Z).
  rewrite F. replace (Qle_bool (1 # 2) (x - inject_Z k)) with false; [reflexivity|].
  symmetry. apply not_true_iff_false. rewrite Qle_bool_iff. lra.
Qed.

Theorem C22_year_soy :
  forall y s, 1000 <= y <= 9999 -> 0 <= s < 366 * 86400 -> (y < 9999 \/ s < 365 * 86400) ->
    exists d, year_start y d /\
      year_soy_to_datetime y (inject_Z s) = Ok (day_us d + sec_us s).
Proof.
  intros y s Hy Hs H9.
  destruct (year_soy_main y (inject_Z s) Hy) as [d [h [m [x [P [D E]]]]]].
  { change 0%Q with (inject_Z 0). rewrite <- Zle_Qle. lia. }
  { change (366 * 86400)%Q with (inject_Z (366 * 86400)). rewrite <- Zlt_Qlt. lia. }
  destruct (whole_parts s d h m x P) as [k [K1 [K2 K3]]].
  rewrite (round_whole x k K2) in E. exists (days_before_year y).
  split; [apply year_start_spec; split; [lia|reflexivity]|]. rewrite E.
  destruct P as [P1 P2 _ _ _].
  rewrite (proj2 (Z.eqb_neq k 60)) by lia. rewrite orb_false_r.
  replace ((y =? 9999) && (d =? 365)) with false
    by (symmetry; apply andb_false_iff; rewrite !Z.eqb_neq; lia).
  f_equal. unfold us_day, day_us, sec_us. lia.
Qed.

Theorem C22_year_soy_rejects :
  forall y s, ~ (1000 <= y <= 9999) \/ s < 0 \/ 366 * 86400 <= s \/ (y = 9999 /\ 365 * 86400 <= s) ->
    year_soy_to_datetime y (inject_Z s) = Err ValueError.
Proof.
  intros y s H.
  destruct (Z_lt_ge_dec y 1000) as [L|L]; [apply year_soy_bad_year; lia|].
  destruct (Z_lt_ge_dec 9999 y) as [U|U]; [apply year_soy_bad_year; lia|].
  destruct (Z_lt_ge_dec s 0) as [N|N].
  { apply year_soy_bad_day; [lia|]. left. change 0%Q with (inject_Z 0). rewrite <- Zlt_Qlt. exact N. }
  destruct (Z_lt_ge_dec s (366 * 86400)) as [M|M].
  2:{ apply year_soy_bad_day; [lia|]. right. change (366 * 86400)%Q with (inject_Z (366 * 86400)).
      rewrite <- Zle_Qle. lia. }
  destruct H as [H|[H|[H|[-> H]]]]; try lia.
  destruct (year_soy_main 9999 (inject_Z s) ltac:(lia)) as [d [h [m [x [P [D E]]]]]].
  { change 0%Q with (inject_Z 0). rewrite <- Zle_Qle. lia. }
  { change (366 * 86400)%Q with (inject_Z (366 * 86400)). rewrite <- Zlt_Qlt. lia. }
  destruct (whole_parts s d h m x P) as [k [K1 [K2 K3]]]. destruct P as [P1 P2 _ _ _].
  rewrite E. rewrite (proj2 (Z.eqb_eq d 365)) by lia. reflexivity.
Qed.

(** The 366th day of a common year is 1 January of the next year. *)
Theorem C22_rolls_over :
  forall y s, 1000 <= y < 9999 -> ~ leap_year y -> 365 * 86400 <= s < 366 * 86400 ->
    exists d, year_start (y + 1) d /\
      year_soy_to_datetime y (inject_Z s) = Ok (day_us d + sec_us (s - 365 * 86400)).
Proof.
  intros y s Hy L Hs. destruct (C22_year_soy y s ltac:(lia) ltac:(lia) ltac:(lia)) as [d [A B]].
  exists (d + 365). split; [now apply ys_common|]. rewrite B. f_equal. unfold day_us, sec_us. lia.
Qed.

(** 2001-001 18:00:00 and the roll-over of 2001 (a common year). *)
Example C22_case :
  year_soy_to_datetime 2001 64800 = Ok (day_us 730485 + sec_us 64800) /\ year_start 2001 730485 /\
  year_soy_to_datetime 2001 31536000 = Ok (day_us 730850).
Proof.
  split; [vm_compute; reflexivity|]. split; [apply year_start_spec; split; [lia|reflexivity]|].
  vm_compute. reflexivity.
Qed.

(** ** C23: fractional seconds of year *)
Definition last_half_second (q : Q) : Prop :=
  exists k : Z, (inject_Z (60 * k) + (119 # 2) <= q)%Q /\ (q < inject_Z (60 * k) + 60)%Q.

Theorem C23_fractional_seconds_partial :
  forall y q, 1000 <= y <= 9999 -> (0 <= q)%Q -> (q < 365 * 86400)%Q -> ~ last_half_second q ->
    exists d t, year_start y d /\ year_soy_to_datetime y q = Ok t /\
      (Qabs (inject_Z (t - day_us d) - q * 1000000) <= 500000)%Q.
Proof.
  intros y q Hy H0 H1 HL.
  destruct (year_soy_main y q Hy H0 ltac:(lra)) as [d [h [m [x [P [D E]]]]]].
  pose proof P as [P1 P2 P3 P4 P5]. destruct (round_range x P3 P4) as [R1 R2].
  destruct (round_half_even_bounds x P3) as [B1 B2].
  assert (N : round_half_even x <> 60).
  { intros K. apply R2 in K. apply HL. exists (d * 1440 + h * 60 + m).
    replace (60 * (d * 1440 + h * 60 + m)) with (d * 86400 + h * 3600 + m * 60) by lia. lra. }
  assert (D3 : d <= 364).
  { apply Z.le_ngt. intros K. assert (d = 365) by lia. subst d.
    assert (X : (inject_Z (365 * 86400) <= inject_Z (365 * 86400 + h * 3600 + m * 60))%Q)
      by (rewrite <- Zle_Qle; lia).
    change (inject_Z (365 * 86400)) with (365 * 86400)%Q in X. lra. }
  eexists (days_before_year y), _. split; [apply year_start_spec; split; [lia|reflexivity]|]. split.
  { rewrite E. rewrite (proj2 (Z.eqb_neq _ 60)) by exact N. rewrite (proj2 (Z.eqb_neq d 365)) by lia.
    rewrite andb_false_r. reflexivity. }
  set (r := round_half_even x) in *.
  replace ((days_before_year y + d) * us_day + ((h * 60 + m) * 60 + r) * 1000000 - day_us (days_before_year y))
    with ((d * 86400 + h * 3600 + m * 60) * 1000000 + r * 1000000) by (unfold us_day, day_us; lia).
  rewrite inject_Z_plus, !(inject_Z_mult _ 1000000). change (inject_Z 1000000) with 1000000%Q.
  apply Qabs_Qle_condition. rewrite P5. split; lra.
Qed.

(** The excluded half seconds all fail. *)
Theorem C23_last_half_second_rejected :
  forall y q, 1000 <= y <= 9999 -> (0 <= q)%Q -> (q < 366 * 86400)%Q -> last_half_second q ->
    year_soy_to_datetime y q = Err ValueError.
Proof.
  intros y q Hy H0 H1 [k [K1 K2]].
  destruct (year_soy_main y q Hy H0 H1) as [d [h [m [x [P [D E]]]]]].
  pose proof P as [P1 P2 P3 P4 P5]. destruct (round_range x P3 P4) as [R1 R2].
  replace (d * 86400 + h * 3600 + m * 60) with (60 * (d * 1440 + h * 60 + m)) in P5 by lia.
  set (k' := d * 1440 + h * 60 + m) in *. rewrite !inject_Z_mult in *.
  change (inject_Z 60) with 60%Q in *.
  assert (k = k').
  { assert (A : (inject_Z k < inject_Z (k' + 1))%Q)
      by (rewrite inject_Z_plus; change (inject_Z 1) with 1%Q; lra).
    assert (B : (inject_Z k' < inject_Z (k + 1))%Q)
      by (rewrite inject_Z_plus; change (inject_Z 1) with 1%Q; lra).
    rewrite <- Zlt_Qlt in A, B. lia. }
  subst k. assert (X : (119 # 2 <= x)%Q) by lra. apply R2 in X. rewrite E, X, Z.eqb_refl, orb_true_r.
  reflexivity.
Qed.

(** The claim fails: 59.5 s into 2000 raises. *)
Theorem C23_fractional_seconds_refuted :
  ~ (forall y q, 1000 <= y <= 9999 -> (0 <= q)%Q -> (q < 365 * 86400)%Q ->
       exists d t, year_start y d /\ year_soy_to_datetime y q = Ok t /\
         (Qabs (inject_Z (t - day_us d) - q * 1000000) <= 500000)%Q).
Proof.
  intros H. destruct (H 2000 (119 # 2) ltac:(lia) ltac:(lra) ltac:(lra)) as [d [t [_ [E _]]]].
  assert (K : year_soy_to_datetime 2000 (119 # 2) = Err ValueError) by (vm_compute; reflexivity).
  rewrite K in E. discriminate.
Qed.

Example C23_case : ~ last_half_second (7261 # 5) /\
  year_soy_to_datetime 2000 (7261 # 5) = Ok (day_us 730119 + sec_us 1452).
Proof.
  split; [|vm_compute; reflexivity]. intros [k [A B]].
  assert (X : (inject_Z (60 * k) < inject_Z 1393)%Q) by (change (inject_Z 1393) with 1393%Q; lra).
  assert (Y : (inject_Z 1392 < inject_Z (60 * k))%Q) by (change (inject_Z 1392) with 1392%Q; lra).
  rewrite <- Zlt_Qlt in X, Y. lia.
Qed.

(** ** C24: years since 1900 and day of year *)
Theorem C24_yyddd :
  forall v ds a b c x y z tail,
    written v ds -> is_digit_of a x -> is_digit_of b y -> is_digit_of c z ->
    (tail = [] \/ exists w, tail = "."%char :: w) ->
    let j := 100 * x + 10 * y + z in
    1900 + v <= 9999 -> 1 <= j <= 366 -> (1900 + v < 9999 \/ j <= 365) ->
    exists d, year_start (1900 + v) d /\
      yyddd_to_date (Some (ds ++ [a; b; c] ++ tail)) = Ok (day_us (d + (j - 1))).
Proof.
  intros v ds a b c x y z tail W A B C T j Hv Hj H9. destruct (written_spec v ds W) as [V0 _].
  exists (days_before_year (1900 + v)). split; [apply year_start_spec; split; [lia|reflexivity]|].
  unfold yyddd_to_date. rewrite (yyddd_main v ds a b c x y z tail W A B C T). cbn [bind]. fold j.
  pose proof (strptime_yj (1900 + v) j ltac:(lia) ltac:(lia)) as P. cbv zeta in P.
  replace ((1 <=? j) && (j <=? 366)) with true in P
    by (symmetry; apply andb_true_iff; rewrite !Z.leb_le; lia).
  replace ((1900 + v =? 9999) && (j =? 366)) with false in P
    by (symmetry; apply andb_false_iff; rewrite !Z.eqb_neq; lia).
  destruct (of_doy (1900 + v) j) as [[y' m] d]. destruct P as [P K]. rewrite P. cbn [sp_time]. exact K.
Qed.

Theorem C24_yyddd_rejects :
  forall v ds a b c x y z tail,
    written v ds -> is_digit_of a x -> is_digit_of b y -> is_digit_of c z ->
    (tail = [] \/ exists w, tail = "."%char :: w) ->
    let j := 100 * x + 10 * y + z in
    j = 0 \/ 366 < j \/ 9999 < 1900 + v \/ (1900 + v = 9999 /\ j = 366) ->
    yyddd_to_date (Some (ds ++ [a; b; c] ++ tail)) = Err ValueError.
Proof.
  intros v ds a b c x y z tail W A B C T j H. destruct (written_spec v ds W) as [V0 _].
  destruct (digits3 a b c x y z A B C) as [_ J]. fold j in J.
  unfold yyddd_to_date. rewrite (yyddd_main v ds a b c x y z tail W A B C T). cbn [bind]. fold j.
  destruct (Z_lt_ge_dec 9999 (1900 + v)) as [G|G].
  { rewrite strptime_yj_bigyear by lia. reflexivity. }
  pose proof (strptime_yj (1900 + v) j ltac:(lia) J) as P. cbv zeta in P.
  destruct ((1 <=? j) && (j <=? 366)) eqn:E.
  - apply andb_true_iff in E. rewrite !Z.leb_le in E.
    replace ((1900 + v =? 9999) && (j =? 366)) with true in P
      by (symmetry; apply andb_true_iff; rewrite !Z.eqb_eq; lia).
    rewrite P. reflexivity.
  - destruct P as [->|[w ->]]; reflexivity.
Qed.

Theorem C24_not_a_string : yyddd_to_date None = Err ValueError.
Proof. reflexivity. Qed.

(** Too few characters for a year are rejected as well. *)
Theorem C24_short :
  forall s, (length s <= 3)%nat -> yyddd_to_date (Some s) = Err ValueError.
Proof.
  intros s H. unfold yyddd_to_date, yyddd_strptime.
  assert (L : (length (upto "." s) <= 3)%nat).
  { assert (U : forall c w, (length (upto c w) <= length w)%nat)
      by (intros c w; induction w as [|k w IH]; cbn [upto length]; [lia|]; destruct (Ascii.eqb k c); cbn [length]; lia).
    specialize (U "."%char s). lia. }
  assert (E : drop_last 3 (upto "." s) = []).
  { unfold drop_last. replace (length (upto "." s) - 3)%nat with O by lia. reflexivity. }
  rewrite E. reflexivity.
Qed.

Example C24_case :
  yyddd_to_date (Some (s2l "100366.0")) = Ok (day_us (730119 + 365)) /\
  year_start 2000 730119 /\ written 100 (s2l "100").
Proof.
  split; [vm_compute; reflexivity|]. split; [apply year_start_spec; split; [lia|reflexivity]|].
  assert (D : is_digit_of "1" 1 /\ is_digit_of "0" 0) by (repeat split; lia).
  apply (wr_snoc (s2l "10") "0" 10 0); [|apply D].
  apply (wr_snoc (s2l "1") "0" 1 0); [|apply D]. apply wr_one. apply D.
Qed.

(** ** C25: seconds of day *)
(** [us] is [q] seconds in microseconds, rounded up. *)
Definition ceil_us (q : Q) (us : Z) : Prop :=
  (inject_Z us - 1 < q * 1000000)%Q /\ (q * 1000000 <= inject_Z us)%Q.

Lemma ceil_us_eq q us : ceil_us q us -> Qceiling (q * 1000000) = us.
Proof. intros [A B]. now apply Qceiling_unique. Qed.

Lemma end_of_calendar e : year_start 10000 e -> day_us e = max_us.
Proof. intros H. apply year_start_spec in H. destruct H as [_ ->]. reflexivity. Qed.

Theorem C25_date_and_seconds :
  forall y m d n s q us e,
    calendar_day y m d n -> date_text y m d s -> (0 <= q)%Q -> ceil_us q us -> year_start 10000 e ->
    convert_time None None None (Some q) (Some s) None "%Y-%m-%d %H:%M:%S" =
      if day_us n + us <? day_us e then Ok (day_us n + us) else Err OverflowError.
Proof.
  intros y m d n s q us e C T Hq U E. apply calendar_day_spec in C. destruct C as [C1 [C2 [C3 ->]]].
  change (s2l "%Y-%m-%d %H:%M:%S") with default_fmt.
  rewrite (convert_date_sod y m d s (Some q) _ T ltac:(lia) C2 C3 cut_default).
  apply end_of_calendar in E. rewrite E. apply ceil_us_eq in U.
  change (day_us (ordinal y m d)) with (ordinal y m d * us_day).
  assert (K : mk_datetime y m d 0 0 0 0 = Ok (ordinal y m d * us_day)).
  { rewrite mk_datetime_ok by lia. f_equal. lia. }
  assert (R : 0 <= ordinal y m d * us_day < max_us).
  { unfold max_us. assert (0 <= ordinal y m d < days_before_year 10000); [|unfold us_day; nia].
    unfold ordinal.
    assert (Y : forall a b, 1 <= a <= b -> days_before_year a <= days_before_year b).
    { intros a b Hab. unfold days_before_year. pose proof (Z.div_mod (a - 1) 4 ltac:(lia)).
      pose proof (Z.div_mod (a - 1) 100 ltac:(lia)). pose proof (Z.div_mod (a - 1) 400 ltac:(lia)).
      assert ((a - 1) / 4 <= (b - 1) / 4) by (apply Z.div_le_mono; lia).
      assert ((a - 1) / 400 <= (b - 1) / 400) by (apply Z.div_le_mono; lia).
      assert ((b - 1) / 100 <= (a - 1) / 100 + (b - a)).
      { destruct (Z.eq_dec a b) as [->|]; [lia|]. apply Z.div_le_upper_bound; [lia|].
        pose proof (Z.mod_pos_bound (a - 1) 100 ltac:(lia)). lia. }
      lia. }
    assert (Y1 : 0 <= days_before_year y) by (change 0 with (days_before_year 1); apply Y; lia).
    assert (Y2 : days_before_year (y + 1) <= days_before_year 10000) by (apply Y; lia).
    rewrite days_before_next in Y2.
    assert (M : 0 <= days_before_month y m /\ days_before_month y m + month_len y m <= year_len y).
    { clear - C2. assert (M : m = 1 \/ m = 2 \/ m = 3 \/ m = 4 \/ m = 5 \/ m = 6 \/ m = 7 \/ m = 8 \/ m = 9 \/
              m = 10 \/ m = 11 \/ m = 12) by lia.
      destruct M as [->|[->|[->|[->|[->|[->|[->|[->|[->|[->|[->| ->]]]]]]]]]]]; cbv -[is_leap];
        destruct (is_leap y); split; congruence. }
    lia. }
  destruct (ordinal y m d * us_day + us <? max_us) eqn:L.
  - apply Z.ltb_lt in L. rewrite add_sod_spec; [now rewrite U|lia|exact Hq|now rewrite U].
  - apply Z.ltb_ge in L. apply add_sod_overflow; [exact R|exact Hq|now rewrite U].
Qed.

(** The same with the date given as YYDDD. *)
Theorem C25_yyddd_and_seconds :
  forall v ds a b c x y z tail q us e date fmt,
    written v ds -> is_digit_of a x -> is_digit_of b y -> is_digit_of c z ->
    (tail = [] \/ exists w, tail = "."%char :: w) ->
    let j := 100 * x + 10 * y + z in
    1900 + v < 9999 -> 1 <= j <= 366 -> (0 <= q)%Q -> ceil_us q us -> year_start 10000 e ->
    In fmt [s2l "%Y-%m-%d %H:%M:%S"; s2l "YYDDD SOD"; s2l "%Y-%m-%d SOD"; s2l "yyddd sod"] ->
    exists d, year_start (1900 + v) d /\
      (day_us (d + (j - 1)) + us < day_us e ->
       convert_time None None (Some (ds ++ [a; b; c] ++ tail)) (Some q) date None fmt =
         Ok (day_us (d + (j - 1)) + us)).
Proof.
  intros v ds a b c x y z tail q us e date fmt W A B C T j Hv Hj Hq U E F.
  destruct (written_spec v ds W) as [V0 _].
  exists (days_before_year (1900 + v)). split; [apply year_start_spec; split; [lia|reflexivity]|].
  intros L. apply end_of_calendar in E. rewrite E in L. apply ceil_us_eq in U.
  assert (F' : cut_time " SOD" (cut_time " %H:%M:%S" (yyddd_fmt fmt)) = ymd_fmt).
  { cbn [In] in F. destruct F as [<-|[<-|[<-|[<-|[]]]]]; reflexivity. }
  rewrite (convert_yyddd v ds a b c x y z tail (Some q) date fmt W A B C T) by (assumption || fold j; lia).
  fold j. change (day_us (days_before_year (1900 + v) + (j - 1)))
    with ((days_before_year (1900 + v) + (j - 1)) * us_day) in *.
  rewrite add_sod_spec; [now rewrite U| |exact Hq|now rewrite U].
  assert (0 <= days_before_year (1900 + v)).
  { unfold days_before_year. assert (0 <= (1900 + v - 1) / 4) by (apply Z.div_pos; lia).
    assert (0 <= (1900 + v - 1) / 400) by (apply Z.div_pos; lia).
    assert ((1900 + v - 1) / 100 <= 1900 + v - 1) by (apply Z.div_le_upper_bound; lia). lia. }
  unfold us_day. nia.
Qed.

Lemma may5_text : date_text 2000 5 5 (s2l "2000-05-05").
Proof.
  exists (s2l "2000"), (s2l "05"), (s2l "05").
  assert (D5 : date2 (s2l "05") 5) by (exists "0"%char, "5"%char, 0, 5; repeat split; lia).
  split; [|split; [exact D5|split; [exact D5|reflexivity]]].
  exists "2"%char, "0"%char, "0"%char, "0"%char, 2, 0, 0, 0. repeat split; lia.
Qed.

Example C25_case :
  date_text 2000 5 5 (s2l "2000-05-05") /\ calendar_day 2000 5 5 730244 /\
  ceil_us (200001 # 3) 66667000000 /\
  convert_time None None None (Some (1 # 3)) (Some (s2l "2000-05-05")) None "%Y-%m-%d %H:%M:%S"
    = Ok (day_us 730244 + 333334).
Proof.
  split; [exact may5_text|]. split; [apply calendar_day_spec; vm_compute; repeat split; congruence|].
  split; [split; [reflexivity|discriminate]|]. vm_compute. reflexivity.
Qed.

(** ** C26: length of formatted times *)
(** Directives whose text can be longer than the directive. *)
Definition lengthening : list ascii :=
  ["a"; "A"; "b"; "B"; "Y"; "f"; "z"; "Z"; "j"; "c"; "x"; "X"]%char.

Theorem C26_format_length_partial :
  forall ps t r, valid_tm t -> (forall c, In c lengthening -> uses c ps <= 1) ->
    strftime ps t = Some r ->
    zlen r <= get_datetime_fmt_len (fmt_text ps).
Proof. intros ps t r V U H. exact (fmt_len_bound ps t r V U H). Qed.

(** Reading exactly that many characters of a field therefore never cuts a time. *)
Theorem C26_prefix_keeps_time :
  forall ps t r rest, valid_tm t -> (forall c, In c lengthening -> uses c ps <= 1) ->
    strftime ps t = Some r ->
    exists w, firstn (Z.to_nat (get_datetime_fmt_len (fmt_text ps))) (r ++ rest) = r ++ w.
Proof.
  intros ps t r rest V U H. pose proof (C26_format_length_partial ps t r V U H) as L.
  unfold zlen in L. eexists. rewrite firstn_app. rewrite firstn_all2 by lia. reflexivity.
Qed.

Theorem C26_format_length_refuted :
  ~ (forall ps t r, valid_tm t -> strftime ps t = Some r -> zlen r <= get_datetime_fmt_len (fmt_text ps)).
Proof.
  intros H. specialize (H [PDir "Y"; PDir "Y"] (mkT 2000 5 5 0 0 0 0 5 126) (s2l "20002000")).
  assert (V : valid_tm (mkT 2000 5 5 0 0 0 0 5 126)) by (unfold valid_tm; cbn; lia).
  specialize (H V eq_refl). vm_compute in H. congruence.
Qed.

(** An ISO year directive is not counted at all. *)
Theorem C26_iso_year_not_counted :
  get_datetime_fmt_len "%G" = 2 /\ forall y, 1000 <= y <= 9999 -> zlen (render_G y) = 4.
Proof.
  split; [reflexivity|]. intros y Hy. unfold render_G.
  destruct (dec_4 y Hy) as [a [b [c [d [_ [_ [_ [_ [_ ->]]]]]]]]]. reflexivity.
Qed.

Example C26_case :
  let ps := [PDir "Y"; PLit "-"; PDir "B"; PLit "-"; PDir "d"; PLit " "; PDir "X"; PLit "."; PDir "f"] in
  (forall c, In c lengthening -> uses c ps <= 1) /\
  strftime ps (mkT 2000 9 5 1 2 3 45 2 249) = Some (s2l "2000-September-05 01:02:03.000045") /\
  get_datetime_fmt_len (fmt_text ps) = 35.
Proof.
  cbv zeta. split; [|split; vm_compute; reflexivity].
  intros c Hc. unfold lengthening in Hc. cbn [In] in Hc.
  repeat (destruct Hc as [<-|Hc]; [vm_compute; congruence|]). destruct Hc.
Qed.

(** ** C76: malformed input is reported with ValueError *)
Theorem C76_year_soy_only_value_error_partial :
  forall y q yyddd sod date tod fmt,
    convert_time (Some y) (Some q) yyddd sod date tod fmt = year_soy_to_datetime y q /\
    (year_soy_to_datetime y q = Err ValueError \/ exists t, year_soy_to_datetime y q = Ok t).
Proof.
  intros. split.
  - unfold convert_time.
    rewrite <- (soy_text_converted (fun r => match r with SpUnconverted rest => on_unconverted None rest fmt
                                             | r => sp_time r end)); [destruct (strptime (year_soy_text y q) year_soy_fmt); reflexivity|].
    split; reflexivity.
  - unfold year_soy_to_datetime.
    destruct (strptime (year_soy_text y q) year_soy_fmt) as [a b c d e f g| |]; cbn [sp_time]; auto.
    unfold mk_datetime. destruct (_ && _); [right; eexists; reflexivity|now left].
Qed.

Theorem C76_value_error_refuted :
  ~ (forall yyddd t, yyddd_to_date (Some yyddd) = Err ValueError ->
       convert_time None None (Some yyddd) None None None "%Y-%m-%d %H:%M:%S" = t -> t = Err ValueError).
Proof.
  intros H. specialize (H (s2l "99999") (Err NameError) eq_refl eq_refl). discriminate.
Qed.

Example C76_case : convert_time (Some 2001) (Some (119 # 2)) None None None None "" = Err ValueError.
Proof. vm_compute. reflexivity. Qed.

(** ** C77: seconds of day are never dropped *)
(** True for well formed dates: [C25_date_and_seconds].  With anything after the
    date the seconds vanish. *)
Theorem C77_seconds_kept_partial :
  forall y m d n s q1 q2 t,
    calendar_day y m d n -> date_text y m d s -> (0 <= q1)%Q -> (q1 + 1 <= q2)%Q ->
    convert_time None None None (Some q1) (Some s) None "%Y-%m-%d %H:%M:%S" = Ok t ->
    convert_time None None None (Some q2) (Some s) None "%Y-%m-%d %H:%M:%S" <> Ok t.
Proof.
  intros y m d n s q1 q2 t C T H1 H2 E1 E2.
  destruct (ceiling_bounds (q1 * 1000000)) as [A1 A2]. destruct (ceiling_bounds (q2 * 1000000)) as [B1 B2].
  assert (YE : year_start 10000 (days_before_year 10000))
    by (apply year_start_spec; split; [lia|reflexivity]).
  rewrite (C25_date_and_seconds y m d n s q1 _ _ C T H1 (conj A1 A2) YE) in E1.
  rewrite (C25_date_and_seconds y m d n s q2 _ _ C T ltac:(lra) (conj B1 B2) YE) in E2.
  destruct (_ <? _) in E1; [|discriminate]. destruct (_ <? _) in E2; [|discriminate].
  injection E1 as E1. injection E2 as E2.
  assert (K : Qceiling (q1 * 1000000) = Qceiling (q2 * 1000000)) by lia. rewrite K in *. lra.
Qed.

Theorem C77_seconds_kept_refuted :
  exists date t, forall q,
    convert_time None None None (Some q) (Some date) None "%Y-%m-%d %H:%M:%S" = Ok t /\
    t = day_us 730244.
Proof.
  exists (s2l "2000-05-05Z"), (day_us 730244). intros q. split; [|reflexivity].
  unfold convert_time. change (s2l "%Y-%m-%d %H:%M:%S") with default_fmt. rewrite cut_default.
  assert (E : strptime (s2l "2000-05-05Z") ymd_fmt = SpUnconverted (s2l "Z")) by (vm_compute; reflexivity).
  rewrite E. vm_compute. reflexivity.
Qed.

Example C77_case : date_text 2000 5 5 (s2l "2000-05-05").
Proof. exact may5_text. Qed.

(** ** C78: date and time-of-day texts *)
Theorem C78_date_and_time_text :
  forall y m d n h mi s sd st rest,
    calendar_day y m d n -> date_text y m d sd ->
    0 <= h <= 23 -> 0 <= mi <= 59 -> 0 <= s <= 59 -> tod_text h mi s st ->
    let t := day_us n + sec_us (h * 3600 + mi * 60 + s) in
    let r := convert_time None None None None (Some sd) (Some (st ++ rest)) "%Y-%m-%d %H:%M:%S" in
    (~ In " "%char rest -> r = Ok t) /\ (In " "%char rest -> r = Err ValueError).
Proof.
  intros y m d n h mi s sd st rest C D Hh Hm Hs T t r.
  apply calendar_day_spec in C. destruct C as [C1 [C2 [C3 ->]]].
  assert (E : r = match rest with
    | [] => Ok t
    | _ => if in_dec ascii_dec " "%char rest then Err ValueError else Ok t end).
  { unfold r. change (s2l "%Y-%m-%d %H:%M:%S") with default_fmt.
    rewrite (convert_date_tod y m d h mi s sd st rest None D T ltac:(lia) C2 C3 Hh Hm Hs).
    replace (ordinal y m d * us_day + ((h * 60 + mi) * 60 + s) * 1000000) with t
      by (unfold t, us_day, day_us, sec_us; lia).
    reflexivity. }
  rewrite E. destruct rest as [|x w].
  - split; [reflexivity|intros []].
  - destruct (in_dec ascii_dec " "%char (x :: w)); split; intros; congruence.
Qed.

Example C78_case :
  convert_time None None None None (Some (s2l "2000-05-05")) (Some (s2l "01:02:03.999")) "%Y-%m-%d %H:%M:%S"
    = Ok (day_us 730244 + sec_us 3723) /\
  convert_time None None None None (Some (s2l "2000-05-05")) (Some (s2l "01:02:03 UT")) "%Y-%m-%d %H:%M:%S"
    = Err ValueError.
Proof. split; vm_compute; reflexivity. Qed.

Print Assumptions C22_year_soy.
Print Assumptions C22_year_soy_rejects.
Print Assumptions C22_rolls_over.
Print Assumptions C23_fractional_seconds_partial.
Print Assumptions C23_last_half_second_rejected.
Print Assumptions C23_fractional_seconds_refuted.
Print Assumptions C24_yyddd.
Print Assumptions C24_yyddd_rejects.
Print Assumptions C24_not_a_string.
Print Assumptions C24_short.
Print Assumptions C25_date_and_seconds.
Print Assumptions C25_yyddd_and_seconds.
Print Assumptions C26_format_length_partial.
Print Assumptions C26_prefix_keeps_time.
Print Assumptions C26_format_length_refuted.
Print Assumptions C26_iso_year_not_counted.
Print Assumptions C76_year_soy_only_value_error_partial.
Print Assumptions C76_value_error_refuted.
Print Assumptions C77_seconds_kept_partial.
Print Assumptions C77_seconds_kept_refuted.
Print Assumptions C78_date_and_time_text.
