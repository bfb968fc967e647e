(** Proofs about the time formats, part 2: whole conversions. *)
From Coq Require Import String Ascii ZArith QArith Qround List Bool Lia Lqa Znumtheory.
From Verif Require Import PyBase TimeModel TimeSpec TimeProofs.
Import ListNotations.
Open Scope string_scope.
Open Scope list_scope.
Open Scope Z_scope.

Definition build (fs : list (dirv * str)) : sp :=
  let r := fold_left set_field fs (mkF 1900 1 1 None 0 0 0 0) in
  let '(y, m, d) := match fj r with
                    | Some j => of_doy (fY r) j
                    | None => (fY r, fm r, fd r) end in
  if (1 <=? fY r) && (fY r <=? 9999) then
    match mk_datetime y m d (fH r) (fM r) (fS r) (ff r) with
    | Ok _ => SpOk y m d (fH r) (fM r) (fS r) (ff r)
    | Err _ => SpErr
    end
  else SpErr.

Lemma strptime_hd s fmt t : parse_fmt fmt = Some t ->
  strptime s fmt = match hd_error (matches t s) with
                   | None => SpErr
                   | Some (fs, []) => build fs
                   | Some (fs, rest) => SpUnconverted rest
                   end.
Proof.
  intros H. unfold strptime. rewrite H. destruct (matches t s) as [|[fs rest] l]; [reflexivity|].
  cbn [hd_error]. destruct rest; reflexivity.
Qed.

Definition soy_toks : list tok :=
  [TDir DY; TLit "-"; TDir Dj; TLit "-"; TDir DH; TLit "-"; TDir DM; TLit "-"; TDir DS].
Lemma soy_parse : parse_fmt year_soy_fmt = Some soy_toks.
Proof. reflexivity. Qed.

Lemma int_sp_dec y : 0 <= y <= 9999 -> int_sp (dec y) = y.
Proof.
  intros H. destruct (Z_lt_ge_dec y 1000) as [L|L].
  - apply int_sp_dec_small. lia.
  - apply int_sp_dec4. lia.
Qed.

Lemma fmt_d_nonneg n : 0 <= n -> fmt_d n = dec n.
Proof. intros H. unfold fmt_d. now rewrite (proj2 (Z.ltb_ge n 0)) by lia. Qed.

(** A reading of strptime's outcome that does not look at left-over text. *)
Definition plain_reading (F : sp -> res Z) : Prop :=
  F SpErr = Err ValueError /\
  forall y m d H M Sc f, F (SpOk y m d H M Sc f) = mk_datetime y m d H M Sc f.
Lemma sp_time_plain : plain_reading sp_time.
Proof. split; reflexivity. Qed.

Lemma strptime_soy F y j h m s : plain_reading F ->
  1000 <= y <= 9999 -> 1 <= j <= 366 -> 0 <= h <= 23 -> 0 <= m <= 59 -> 0 <= s <= 60 ->
  F (strptime (dec y ++ "-"%char :: dec j ++ "-"%char :: dec h ++ "-"%char :: dec m
                     ++ "-"%char :: dec s) year_soy_fmt)
  = if ((y =? 9999) && (j =? 366)) || (s =? 60) then Err ValueError
    else Ok ((days_before_year y + (j - 1)) * us_day + ((h * 60 + m) * 60 + s) * 1000000).
Proof.
  intros [HF1 HF2] Hy Hj Hh Hm Hs. rewrite (strptime_hd _ _ _ soy_parse). unfold soy_toks.
  rewrite matches_Y by exact Hy. rewrite hd_map.
  change (matches (TLit "-" :: ?t) ("-"%char :: ?r)) with (matches t r).
  rewrite matches_j by exact Hj. rewrite hd_map.
  rewrite matches_H by exact Hh. rewrite hd_map.
  rewrite matches_M by exact Hm. rewrite hd_map.
  rewrite matches_S_end by exact Hs. cbn [option_map fst snd].
  unfold build. cbn [fold_left set_field fst snd fY fm fd fj fH fM fS ff].
  rewrite !int_sp_dec by lia.
  replace ((1 <=? y) && (y <=? 9999)) with true
    by (symmetry; apply andb_true_iff; rewrite !Z.leb_le; lia).
  destruct (Z.eq_dec s 60) as [->|Ns].
  - rewrite Z.eqb_refl, orb_true_r. destruct (of_doy y j) as [[y' mo] d].
    assert (E : mk_datetime y' mo d h m 60 0 = Err ValueError).
    { unfold mk_datetime. change (60 <=? 59) with false. rewrite !andb_false_r. reflexivity. }
    rewrite E. exact HF1.
  - pose proof (doy_time y j h m s ltac:(lia) Hj Hh Hm ltac:(lia)) as P.
    destruct (of_doy y j) as [[y' mo] d]. rewrite P.
    rewrite (proj2 (Z.eqb_neq s 60)) by exact Ns. rewrite orb_false_r.
    destruct ((y =? 9999) && (j =? 366)); [exact HF1|]. rewrite HF2. exact P.
Qed.

(** ** Splitting seconds of year *)
Lemma floor_bounds q : (inject_Z (Qfloor q) <= q)%Q /\ (q < inject_Z (Qfloor q) + 1)%Q.
Proof.
  split; [apply Qfloor_le|]. pose proof (Qlt_floor q) as H. rewrite inject_Z_plus in H. exact H.
Qed.

Lemma Qfloor_unique q n : (inject_Z n <= q)%Q -> (q < inject_Z n + 1)%Q -> Qfloor q = n.
Proof.
  intros H1 H2. destruct (floor_bounds q) as [A B].
  assert ((inject_Z n < inject_Z (Qfloor q) + 1)%Q) by lra.
  assert ((inject_Z (Qfloor q) < inject_Z n + 1)%Q) by lra.
  change 1%Q with (inject_Z 1) in *. rewrite <- inject_Z_plus in *.
  rewrite <- Zlt_Qlt in *. lia.
Qed.

Lemma Z_of_Q_lt a b : (inject_Z a < inject_Z b + 1)%Q -> a <= b.
Proof.
  intros H. change 1%Q with (inject_Z 1) in H. rewrite <- inject_Z_plus in H.
  rewrite <- Zlt_Qlt in H. lia.
Qed.

Record soy_parts (q : Q) (d h m : Z) (s : Q) : Prop := {
  sp_h : 0 <= h <= 23; sp_m : 0 <= m <= 59; sp_s0 : (0 <= s)%Q; sp_s1 : (s < 60)%Q;
  sp_sum : (q == inject_Z (d * 86400 + h * 3600 + m * 60) + s)%Q }.

Lemma soy_split q :
  let d := Qfloor (q / 86400) in
  let h := Qfloor ((q - inject_Z d * 86400) / 3600) in
  let m := Qfloor ((q - inject_Z d * 86400 - inject_Z h * 3600) / 60) in
  let s := (q - inject_Z d * 86400 - inject_Z h * 3600 - inject_Z m * 60)%Q in
  soy_parts q d h m s.
Proof.
  intros d h m s. subst s.
  destruct (floor_bounds (q / 86400)) as [A1 A2]. fold d in A1, A2.
  destruct (floor_bounds ((q - inject_Z d * 86400) / 3600)) as [B1 B2]. fold h in B1, B2.
  destruct (floor_bounds ((q - inject_Z d * 86400 - inject_Z h * 3600) / 60)) as [C1 C2].
  fold m in C1, C2. clearbody d h m.
  assert (A1' : (inject_Z d * 86400 <= q)%Q).
  { setoid_replace q with (q / 86400 * 86400)%Q by field. apply Qmult_le_compat_r; [exact A1|]. discriminate. }
  assert (A2' : (q < (inject_Z d + 1) * 86400)%Q).
  { setoid_replace q with (q / 86400 * 86400)%Q by field. apply Qmult_lt_compat_r; [reflexivity|exact A2]. }
  set (q1 := (q - inject_Z d * 86400)%Q) in *.
  assert (B1' : (inject_Z h * 3600 <= q1)%Q).
  { setoid_replace q1 with (q1 / 3600 * 3600)%Q by field. apply Qmult_le_compat_r; [exact B1|]. discriminate. }
  assert (B2' : (q1 < (inject_Z h + 1) * 3600)%Q).
  { setoid_replace q1 with (q1 / 3600 * 3600)%Q by field. apply Qmult_lt_compat_r; [reflexivity|exact B2]. }
  set (q2 := (q1 - inject_Z h * 3600)%Q) in *.
  assert (C1' : (inject_Z m * 60 <= q2)%Q).
  { setoid_replace q2 with (q2 / 60 * 60)%Q by field. apply Qmult_le_compat_r; [exact C1|]. discriminate. }
  assert (C2' : (q2 < (inject_Z m + 1) * 60)%Q).
  { setoid_replace q2 with (q2 / 60 * 60)%Q by field. apply Qmult_lt_compat_r; [reflexivity|exact C2]. }
  subst q2 q1.
  assert (T : forall k, (inject_Z k + 1 == inject_Z (k + 1))%Q) by (intros; rewrite inject_Z_plus; reflexivity).
  constructor.
  - split.
    + apply Z_of_Q_lt. change (inject_Z 0) with 0%Q. lra.
    + apply Z_of_Q_lt. change (inject_Z 23) with 23%Q. lra.
  - split.
    + apply Z_of_Q_lt. change (inject_Z 0) with 0%Q. lra.
    + apply Z_of_Q_lt. change (inject_Z 59) with 59%Q. lra.
  - lra.
  - lra.
  - rewrite !inject_Z_plus, !inject_Z_mult. change (inject_Z 86400) with 86400%Q.
    change (inject_Z 3600) with 3600%Q. change (inject_Z 60) with 60%Q. lra.
Qed.

Lemma round_half_even_bounds q : (0 <= q)%Q ->
  (inject_Z (round_half_even q) - (1 # 2) <= q)%Q /\ (q <= inject_Z (round_half_even q) + (1 # 2))%Q.
Proof.
  intros H. unfold round_half_even. destruct (floor_bounds q) as [A B].
  set (f := Qfloor q) in *. clearbody f.
  destruct (Qle_bool (1 # 2) (q - inject_Z f)) eqn:E; cbn [andb].
  - apply Qle_bool_iff in E. destruct (negb (Qeq_bool (q - inject_Z f) (1 # 2))) eqn:E2; cbn [orb].
    + rewrite inject_Z_plus. change (inject_Z 1) with 1%Q. split; lra.
    + apply negb_false_iff, Qeq_bool_iff in E2. destruct (Z.odd f).
      * rewrite inject_Z_plus. change (inject_Z 1) with 1%Q. split; lra.
      * split; lra.
  - assert (~ ((1 # 2) <= q - inject_Z f)%Q) by (intros K; apply Qle_bool_iff in K; congruence).
    split; lra.
Qed.

Lemma round_range s : (0 <= s)%Q -> (s < 60)%Q ->
  0 <= round_half_even s <= 60 /\ (round_half_even s = 60 <-> ((119 # 2) <= s)%Q).
Proof.
  intros H0 H1. destruct (round_half_even_bounds s H0) as [A B].
  assert (R : 0 <= round_half_even s <= 60).
  { split; apply Z_of_Q_lt.
    - change (inject_Z 0) with 0%Q. lra.
    - change (inject_Z 60) with 60%Q. lra. }
  split; [exact R|]. split; intros H.
  - rewrite H in A. change (inject_Z 60) with 60%Q in A. lra.
  - unfold round_half_even in *. destruct (floor_bounds s) as [C D].
    assert (F : Qfloor s = 59).
    { apply Qfloor_unique; change (inject_Z 59) with 59%Q; lra. }
    rewrite F in *. change (inject_Z 59) with 59%Q in *.
    assert (E : Qle_bool (1 # 2) (s - 59) = true) by (apply Qle_bool_iff; lra).
    rewrite E. cbn [andb]. change (Z.odd 59) with true. rewrite orb_true_r. reflexivity.
Qed.

Lemma fmt_0f_round q : (0 <= q)%Q -> fmt_0f q = dec (round_half_even q).
Proof. intros H. unfold fmt_0f. now rewrite (proj2 (Qle_bool_iff 0 q) H). Qed.

Lemma soy_text_spec y q d h m s : 0 <= y -> soy_parts q d h m s -> 0 <= d ->
  forall q', q' = q -> d = Qfloor (q / 86400) ->
  h = Qfloor ((q - inject_Z d * 86400) / 3600) ->
  m = Qfloor ((q - inject_Z d * 86400 - inject_Z h * 3600) / 60) ->
  s = (q - inject_Z d * 86400 - inject_Z h * 3600 - inject_Z m * 60)%Q ->
  year_soy_text y q' = dec y ++ "-"%char :: dec (d + 1) ++ "-"%char :: dec h ++ "-"%char :: dec m
                       ++ "-"%char :: dec (round_half_even s).
Proof.
  intros Hy P Hd q' -> E1 E2 E3 E4. unfold year_soy_text.
  rewrite <- E1, <- E2, <- E3, <- E4. destruct P as [P1 P2 P3 P4 _].
  rewrite fmt_d_nonneg by exact Hy.
  rewrite (fmt_0f_nonneg (d + 1)) by (reflexivity || lia).
  rewrite (fmt_0f_nonneg h) by (reflexivity || lia).
  rewrite (fmt_0f_nonneg m) by (reflexivity || lia).
  rewrite fmt_0f_round by exact P3. reflexivity.
Qed.

(** Everything about year_soy_to_datetime for a day number >= 0. *)
Lemma year_soy_gen F y q : plain_reading F -> 1000 <= y <= 9999 -> (0 <= q)%Q -> (q < 366 * 86400)%Q ->
  exists d h m s, soy_parts q d h m s /\ 0 <= d <= 365 /\
    F (strptime (year_soy_text y q) year_soy_fmt) =
      if ((y =? 9999) && (d =? 365)) || (round_half_even s =? 60) then Err ValueError
      else Ok ((days_before_year y + d) * us_day + ((h * 60 + m) * 60 + round_half_even s) * 1000000).
Proof.
  intros HF Hy H0 H1. pose proof (soy_split q) as P. cbv zeta in P.
  set (d := Qfloor (q / 86400)) in *.
  set (h := Qfloor ((q - inject_Z d * 86400) / 3600)) in *.
  set (m := Qfloor ((q - inject_Z d * 86400 - inject_Z h * 3600) / 60)) in *.
  set (s := (q - inject_Z d * 86400 - inject_Z h * 3600 - inject_Z m * 60)%Q) in *.
  assert (D : 0 <= d <= 365).
  { destruct P as [P1 P2 P3 P4 P5]. clearbody d h m s.
    rewrite !inject_Z_plus, !inject_Z_mult in P5. change (inject_Z 86400) with 86400%Q in P5.
    change (inject_Z 3600) with 3600%Q in P5. change (inject_Z 60) with 60%Q in P5.
    destruct P1 as [P1 P1']. destruct P2 as [P2 P2'].
    rewrite Zle_Qle in P1, P1', P2, P2'. change (inject_Z 0) with 0%Q in *.
    change (inject_Z 23) with 23%Q in *. change (inject_Z 59) with 59%Q in *.
    split; apply Z_of_Q_lt.
    - change (inject_Z 0) with 0%Q. lra.
    - change (inject_Z 365) with 365%Q. lra. }
  exists d, h, m, s. split; [exact P|]. split; [exact D|].
  rewrite (soy_text_spec y q d h m s ltac:(lia) P ltac:(lia) q eq_refl eq_refl eq_refl eq_refl eq_refl).
  pose proof P as [P1 P2 P3 P4 P5]. destruct (round_range s P3 P4) as [R _].
  rewrite (strptime_soy F) by (exact HF || lia).
  replace (d + 1 =? 366) with (d =? 365) by (apply eq_true_iff_eq; rewrite !Z.eqb_eq; lia).
  replace (d + 1 - 1) with d by lia. reflexivity.
Qed.

Lemma year_soy_main y q : 1000 <= y <= 9999 -> (0 <= q)%Q -> (q < 366 * 86400)%Q ->
  exists d h m s, soy_parts q d h m s /\ 0 <= d <= 365 /\
    year_soy_to_datetime y q =
      if ((y =? 9999) && (d =? 365)) || (round_half_even s =? 60) then Err ValueError
      else Ok ((days_before_year y + d) * us_day + ((h * 60 + m) * 60 + round_half_even s) * 1000000).
Proof. apply (year_soy_gen sp_time y q sp_time_plain). Qed.

(** Rejections. *)
Lemma hd_none_err s fmt t : parse_fmt fmt = Some t -> matches t s = [] -> strptime s fmt = SpErr.
Proof. intros H E. rewrite (strptime_hd _ _ _ H), E. reflexivity. Qed.

Lemma matches_soy_bad_year y r : y < 1000 \/ 9999 < y ->
  matches soy_toks (fmt_d y ++ "-"%char :: r) = [].
Proof.
  intros H. unfold soy_toks.
  assert (G : forall s t, (forall a q, try_alt [dg; dg; dg; dg] s = Some (a, q) -> matches t q = []) ->
              matches (TDir DY :: t) s = []).
  { intros s t K. cbn [matches]. unfold candidates. cbn [alts flat_map].
    destruct (try_alt [dg; dg; dg; dg] s) as [[a q]|] eqn:E; [|reflexivity].
    cbn [app flat_map snd fst]. rewrite (K _ _ eq_refl). reflexivity. }
  apply G. clear G. intros a q E.
  assert (HY : isdigit "-"%char = false) by reflexivity.
  destruct (Z_lt_ge_dec y 0) as [N|N].
  { unfold fmt_d in E. rewrite (proj2 (Z.ltb_lt y 0)) in E by lia. discriminate E. }
  rewrite fmt_d_nonneg in E by lia.
  destruct H as [H|H].
  - exfalso. destruct (Z_le_gt_dec y 9) as [L|L].
    { rewrite dec_1 in E by lia. cbn [app try_alt] in E. change (dg "-"%char) with false in E.
      destruct (dg (dig y)); discriminate E. }
    destruct (Z_le_gt_dec y 99) as [L2|L2].
    { rewrite dec_2 in E by lia. cbn [app try_alt] in E. change (dg "-"%char) with false in E.
      destruct (dg (dig (y / 10))); [|discriminate E].
      destruct (dg (dig (y mod 10))); discriminate E. }
    rewrite dec_unfold in E by lia. rewrite (proj2 (Z.ltb_ge y 10)) in E by lia.
    rewrite dec_2 in E.
    + cbn [app try_alt] in E. change (dg "-"%char) with false in E.
      destruct (dg (dig (y / 10 / 10))); [|discriminate E].
      destruct (dg (dig ((y / 10) mod 10))); [|discriminate E].
      destruct (dg (dig (y mod 10))); discriminate E.
    + split; [apply Z.div_le_lower_bound; lia|]. apply Z.lt_succ_r. apply Z.div_lt_upper_bound; lia.
  - destruct (dec_ge10000 y ltac:(lia)) as [a1 [a2 [a3 [a4 [a5 [w [A1 [A2 [A3 [A4 [A5 A6]]]]]]]]]]].
    rewrite A6 in E. cbn [app] in E. apply try_alt_spec in E. destruct E as [E1 E2].
    destruct a as [|x1 [|x2 [|x3 [|x4 [|x5 a]]]]]; try discriminate E2.
    injection E1 as _ _ _ _ <-. cbn [matches]. rewrite dig_not_hyphen by exact A5. reflexivity.
Qed.

Lemma soy_text_bad_year y q : y < 1000 \/ 9999 < y ->
  strptime (year_soy_text y q) year_soy_fmt = SpErr.
Proof.
  intros H. unfold year_soy_text. cbv zeta.
  apply (hd_none_err _ _ _ soy_parse).
  cbn [app]. apply matches_soy_bad_year. exact H.
Qed.

Lemma year_soy_bad_year y q : y < 1000 \/ 9999 < y -> year_soy_to_datetime y q = Err ValueError.
Proof. intros H. unfold year_soy_to_datetime. now rewrite soy_text_bad_year. Qed.

Lemma strptime_soy_bad_day y X r : 1000 <= y <= 9999 ->
  (forall t, matches (TDir Dj :: TLit "-" :: t) (X ++ "-"%char :: r) = []) ->
  strptime (dec y ++ "-"%char :: X ++ "-"%char :: r) year_soy_fmt = SpErr.
Proof.
  intros Hy H. apply (hd_none_err _ _ _ soy_parse). unfold soy_toks.
  rewrite matches_Y by exact Hy.
  change (matches (TLit "-" :: ?t) ("-"%char :: ?r)) with (matches t r).
  rewrite H. reflexivity.
Qed.

Lemma soy_text_bad_day y q : 1000 <= y <= 9999 -> (q < 0 \/ 366 * 86400 <= q)%Q ->
  strptime (year_soy_text y q) year_soy_fmt = SpErr.
Proof.
  intros Hy H. unfold year_soy_text. cbv zeta.
  set (d := Qfloor (q / 86400)).
  rewrite fmt_d_nonneg by lia. cbn [app].
  rewrite strptime_soy_bad_day; [reflexivity|exact Hy|].
  intros t. pose proof (soy_split q) as P. cbv zeta in P. fold d in P.
  destruct P as [P1 P2 P3 P4 P5].
  match type of P5 with context [inject_Z (d * 86400 + ?h * 3600 + ?m * 60)] =>
    set (hh := h) in *; set (mm := m) in * end.
  match type of P5 with (_ == _ + ?x)%Q => set (ss := x) in * end.
  assert (D : d < 0 \/ 366 <= d).
  { clearbody d hh mm ss.
    rewrite !inject_Z_plus, !inject_Z_mult in P5. change (inject_Z 86400) with 86400%Q in P5.
    change (inject_Z 3600) with 3600%Q in P5. change (inject_Z 60) with 60%Q in P5.
    destruct P1 as [P1 P1']. destruct P2 as [P2 P2'].
    rewrite Zle_Qle in P1, P1', P2, P2'. change (inject_Z 0) with 0%Q in *.
    change (inject_Z 23) with 23%Q in *. change (inject_Z 59) with 59%Q in *.
    destruct H as [H|H].
    - left. assert (d <= -1); [|lia]. apply Z_of_Q_lt. change (inject_Z (-1)) with (-(1))%Q. lra.
    - right. apply Z_of_Q_lt. change (inject_Z 366) with 366%Q. lra. }
  destruct D as [D|D].
  - destruct (Z.eq_dec d (-1)) as [E|E].
    + rewrite E. rewrite (fmt_0f_nonneg 0) by (reflexivity || lia). cbn [app].
      rewrite matches_lit. reflexivity.
    + rewrite (fmt_0f_neg (d + 1)) by (reflexivity || lia). cbn [app]. reflexivity.
  - rewrite (fmt_0f_nonneg (d + 1)) by (reflexivity || lia). apply no_match_j. lia.
Qed.

Lemma year_soy_bad_day y q : 1000 <= y <= 9999 -> (q < 0 \/ 366 * 86400 <= q)%Q ->
  year_soy_to_datetime y q = Err ValueError.
Proof. intros Hy H. unfold year_soy_to_datetime. now rewrite soy_text_bad_day. Qed.

(** No left-over text ever. *)
Lemma soy_text_converted F y q : plain_reading F ->
  F (strptime (year_soy_text y q) year_soy_fmt) = year_soy_to_datetime y q.
Proof.
  intros HF. unfold year_soy_to_datetime.
  destruct (Z_lt_ge_dec y 1000) as [L|L].
  { rewrite soy_text_bad_year by lia. apply (proj1 HF). }
  destruct (Z_lt_ge_dec 9999 y) as [U|U].
  { rewrite soy_text_bad_year by lia. apply (proj1 HF). }
  destruct (Qlt_le_dec q 0) as [N|N].
  { rewrite soy_text_bad_day by (lia || lra). apply (proj1 HF). }
  destruct (Qlt_le_dec q (366 * 86400)) as [M|M].
  2:{ rewrite soy_text_bad_day by (lia || lra). apply (proj1 HF). }
  pose (G := fun r => match r with SpUnconverted _ => Ok 0 | _ => sp_time r end).
  assert (HG : plain_reading G) by (split; reflexivity).
  assert (HG' : plain_reading (fun r => match r with SpUnconverted _ => Ok 1 | _ => sp_time r end))
    by (split; reflexivity).
  destruct (strptime (year_soy_text y q) year_soy_fmt) as [a b c d e f g|w|] eqn:E.
  - apply (proj2 HF).
  - exfalso.
    destruct (year_soy_gen G y q HG ltac:(lia) N M) as [d1 [h1 [m1 [s1 [P1 [_ R1]]]]]].
    destruct (year_soy_gen _ y q HG' ltac:(lia) N M) as [d2 [h2 [m2 [s2 [P2 [_ R2]]]]]].
    rewrite E in R1, R2. unfold G in R1.
    destruct (((y =? 9999) && (d1 =? 365)) || (round_half_even s1 =? 60)); [discriminate|].
    destruct (((y =? 9999) && (d2 =? 365)) || (round_half_even s2 =? 60)); [discriminate|].
    injection R2 as R2. unfold us_day in R2. lia.
  - apply (proj1 HF).
Qed.
