(** Proofs about the time formats, part 3: YYDDD, seconds of day, format length. *)
From Coq Require Import String Ascii ZArith QArith Qround List Bool Lia Lqa Znumtheory.
From Verif Require Import PyBase TimeModel TimeSpec TimeProofs TimeProofs2.
Import ListNotations.
Open Scope string_scope.
Open Scope list_scope.
Open Scope Z_scope.

(** ** Digit strings *)
Lemma written_spec v s : written v s ->
  0 <= v /\ s <> [] /\ forallb isdigit s = true /\ dval s = v.
Proof.
  induction 1 as [c n [H1 H2]|s c v n W [IH0 [IH1 [IH2 IH3]]] [H1 H2]].
  - split; [lia|]. split; [discriminate|]. cbn [forallb]. split.
    + unfold isdigit, between. rewrite H2. rewrite andb_true_r. apply andb_true_iff.
      rewrite !Z.leb_le. lia.
    + unfold dval. cbn [fold_left]. lia.
  - split; [lia|]. split; [destruct s; discriminate|]. split.
    + rewrite forallb_app, IH2. cbn [forallb andb]. rewrite andb_true_r.
      unfold isdigit, between. rewrite H2. apply andb_true_iff. rewrite !Z.leb_le. lia.
    + unfold dval in *. rewrite fold_left_app. cbn [fold_left]. lia.
Qed.

Lemma isdigit_neq c d : isdigit c = true -> isdigit d = false -> Ascii.eqb c d = false.
Proof. intros H1 H2. apply Ascii.eqb_neq. intros ->. congruence. Qed.

Lemma upto_digits s t : forallb isdigit s = true -> (t = [] \/ exists w, t = "."%char :: w) ->
  upto "." (s ++ t) = s.
Proof.
  intros H Ht. induction s as [|c s IH]; cbn [app].
  - destruct Ht as [->|[w ->]]; reflexivity.
  - cbn [forallb] in H. apply andb_true_iff in H. destruct H as [H1 H2]. cbn [upto].
    rewrite (isdigit_neq c ".") by (exact H1 || reflexivity). now rewrite IH.
Qed.

Lemma py_int_digits s : s <> [] -> forallb isdigit s = true -> py_int s = Ok (dval s).
Proof.
  intros H0 H. destruct s as [|c s]; [congruence|]. unfold py_int.
  pose proof H as H'. cbn [forallb] in H. apply andb_true_iff in H. destruct H as [H1 H2].
  rewrite (isdigit_neq c "-") by (exact H1 || reflexivity).
  rewrite (isdigit_neq c "+") by (exact H1 || reflexivity).
  unfold all_digits. now rewrite H'.
Qed.

Lemma drop_last_app (s : str) (a b c : ascii) : drop_last 3 (s ++ [a; b; c]) = s.
Proof.
  unfold drop_last. rewrite app_length. cbn [length].
  replace (length s + 3 - 3)%nat with (length s) by lia. rewrite firstn_app.
  rewrite firstn_all. replace (length s - length s)%nat with O by lia. cbn [firstn]. apply app_nil_r.
Qed.
Lemma take_last_app (s : str) (a b c : ascii) : take_last 3 (s ++ [a; b; c]) = [a; b; c].
Proof.
  unfold take_last. rewrite app_length. cbn [length].
  replace (length s + 3 - 3)%nat with (length s) by lia. rewrite skipn_app.
  rewrite skipn_all. replace (length s - length s)%nat with O by lia. reflexivity.
Qed.

(** ** Three-digit day of year at the end of the text *)
Definition d3 (j : Z) : str := [dig (j / 100); dig (j / 10 mod 10); dig (j mod 10)].

Definition str_eqb (a b : str) : bool := if list_eq_dec ascii_dec a b then true else false.
Lemma str_eqb_eq a b : str_eqb a b = true -> a = b.
Proof. unfold str_eqb. destruct (list_eq_dec ascii_dec a b); [auto|discriminate]. Qed.

Definition check_d3 (j : Z) : bool :=
  match candidates Dj (d3 j) with
  | [] => (j =? 0)
  | (a, r) :: _ =>
      if (1 <=? j) && (j <=? 366) then str_eqb a (d3 j) && str_eqb r [] && (int_sp a =? j)
      else negb (str_eqb r [])
  end.

Lemma check_d3_all j : 0 <= j <= 999 -> check_d3 j = true.
Proof.
  intros H. assert (E : forallb (fun n => check_d3 (Z.of_nat n)) (seq 0 1000) = true)
    by (vm_compute; reflexivity).
  rewrite forallb_forall in E. replace j with (Z.of_nat (Z.to_nat j)) by lia. apply E.
  apply in_seq. lia.
Qed.

Lemma digits3 a b c x y z : is_digit_of a x -> is_digit_of b y -> is_digit_of c z ->
  [a; b; c] = d3 (100 * x + 10 * y + z) /\ 0 <= 100 * x + 10 * y + z <= 999.
Proof.
  intros A B C. pose proof A as [A1 _]. pose proof B as [B1 _]. pose proof C as [C1 _].
  apply digit_is_dig in A. apply digit_is_dig in B. apply digit_is_dig in C. subst.
  split; [|lia]. unfold d3.
  set (j := 100 * x + 10 * y + z).
  assert (E1 : j / 10 = 10 * x + y) by (symmetry; apply (Z.div_unique j 10 _ z); unfold j; lia).
  assert (E2 : j mod 10 = z) by (symmetry; apply (Z.mod_unique j 10 (10 * x + y)); unfold j; lia).
  assert (E3 : j / 100 = x) by (symmetry; apply (Z.div_unique j 100 _ (10 * y + z)); unfold j; lia).
  assert (E4 : (10 * x + y) mod 10 = y) by (symmetry; apply (Z.mod_unique _ 10 x); lia).
  rewrite E1, E2, E3, E4. reflexivity.
Qed.

Definition yj_toks : list tok := [TDir DY; TSpace; TDir Dj].
Lemma yj_parse : parse_fmt "%Y %j" = Some yj_toks. Proof. reflexivity. Qed.

Lemma spaces_one a r : isspace a = false -> spaces (" "%char :: a :: r) = [a :: r].
Proof.
  intros H. cbn [spaces]. change (isspace " "%char) with true. cbv iota. rewrite H. reflexivity.
Qed.
Lemma dig_not_space n : 0 <= n <= 9 -> isspace (dig n) = false.
Proof.
  intros H. destruct (digit_cases n H) as [->|[->|[->|[->|[->|[->|[->|[->|[->| ->]]]]]]]]]; reflexivity.
Qed.
Lemma d3_digits j : 0 <= j <= 999 -> 0 <= j / 100 <= 9 /\ 0 <= j / 10 mod 10 <= 9 /\ 0 <= j mod 10 <= 9.
Proof.
  intros H. pose proof (Z.mod_pos_bound (j / 10) 10 ltac:(lia)).
  pose proof (Z.mod_pos_bound j 10 ltac:(lia)).
  split; [|lia]. split; [apply Z.div_pos; lia|]. apply Z.lt_succ_r. apply Z.div_lt_upper_bound; lia.
Qed.

Lemma strptime_yj y j : 1000 <= y <= 9999 -> 0 <= j <= 999 ->
  let r := strptime (dec y ++ " "%char :: d3 j) "%Y %j" in
  if (1 <=? j) && (j <=? 366) then
    (if (y =? 9999) && (j =? 366) then r = SpErr
     else let '(y', m, d) := of_doy y j in r = SpOk y' m d 0 0 0 0 /\
          mk_datetime y' m d 0 0 0 0 = Ok ((days_before_year y + (j - 1)) * us_day))
  else r = SpErr \/ exists w, r = SpUnconverted w.
Proof.
  intros Hy Hj r. subst r. rewrite (strptime_hd _ _ _ yj_parse). unfold yj_toks.
  rewrite matches_Y by exact Hy. rewrite hd_map.
  assert (M : matches [TSpace; TDir Dj] (" "%char :: d3 j) =
              map (fun p => ([(Dj, fst p)], snd p)) (candidates Dj (d3 j)) ++ []).
  { change (flat_map (matches [TDir Dj]) (spaces (" "%char :: d3 j)) =
            map (fun p => ([(Dj, fst p)], snd p)) (candidates Dj (d3 j)) ++ []).
    unfold d3 at 1. rewrite spaces_one by (apply dig_not_space; apply d3_digits; exact Hj).
    cbn [flat_map]. apply (f_equal (fun l => l ++ [])). cbn [matches]. fold (d3 j).
    induction (candidates Dj (d3 j)) as [|p l IH]; [reflexivity|].
    cbn [flat_map map app]. now rewrite <- IH. }
  rewrite M, hd_map. pose proof (check_d3_all j Hj) as C. unfold check_d3 in C.
  destruct (candidates Dj (d3 j)) as [|[a w] l].
  - cbn [hd_error option_map]. apply Z.eqb_eq in C. subst j. cbn. now left.
  - cbn [hd_error option_map fst snd]. destruct ((1 <=? j) && (j <=? 366)) eqn:E.
    + apply andb_true_iff in C. destruct C as [C C3]. apply andb_true_iff in C. destruct C as [C1 C2].
      apply str_eqb_eq in C1. apply str_eqb_eq in C2. apply Z.eqb_eq in C3. subst w.
      apply andb_true_iff in E. rewrite !Z.leb_le in E.
      unfold build. cbn [fold_left set_field fst snd fY fm fd fj fH fM fS ff].
      rewrite int_sp_dec4 by exact Hy. rewrite C3.
      replace ((1 <=? y) && (y <=? 9999)) with true
        by (symmetry; apply andb_true_iff; rewrite !Z.leb_le; lia).
      pose proof (doy_time y j 0 0 0 ltac:(lia) E ltac:(lia) ltac:(lia) ltac:(lia)) as P.
      destruct (of_doy y j) as [[y' m] d].
      destruct ((y =? 9999) && (j =? 366)); rewrite P; [reflexivity|].
      split; [reflexivity|]. f_equal. lia.
    + apply negb_true_iff in C. destruct w as [|x w]; [discriminate C|]. right. eexists. reflexivity.
Qed.

Lemma strptime_yj_bigyear y x : 10000 <= y -> strptime (dec y ++ " "%char :: x) "%Y %j" = SpErr.
Proof.
  intros H. apply (hd_none_err _ _ _ yj_parse). unfold yj_toks.
  destruct (dec_ge10000 y H) as [a1 [a2 [a3 [a4 [a5 [w [A1 [A2 [A3 [A4 [A5 A6]]]]]]]]]]].
  rewrite A6. cbn [app]. 
  change (flat_map (fun p => map (fun m => ((DY, fst p) :: fst m, snd m)) (matches [TSpace; TDir Dj] (snd p)))
    (candidates DY (dig a1 :: dig a2 :: dig a3 :: dig a4 :: dig a5 :: w ++ " "%char :: x)) = []).
  rewrite cand_Y by assumption. cbn [flat_map fst snd matches spaces].
  rewrite dig_not_space by exact A5. reflexivity.
Qed.

(** yyddd_to_date on well formed text. *)
Lemma yyddd_main v ds a b c x y z tail :
  written v ds -> is_digit_of a x -> is_digit_of b y -> is_digit_of c z ->
  (tail = [] \/ exists w, tail = "."%char :: w) ->
  let j := 100 * x + 10 * y + z in
  let yr := 1900 + v in
  yyddd_strptime (ds ++ [a; b; c] ++ tail) = Ok (strptime (dec yr ++ " "%char :: d3 j) "%Y %j").
Proof.
  intros W A B C T j yr. destruct (written_spec v ds W) as [V0 [V1 [V2 V3]]].
  unfold yyddd_strptime. rewrite app_assoc. rewrite upto_digits.
  - rewrite drop_last_app, take_last_app. rewrite py_int_digits by assumption. cbn [bind].
    rewrite V3. destruct (digits3 a b c x y z A B C) as [-> _]. fold j.
    rewrite fmt_d_nonneg by lia. replace (v + 1900) with yr by (unfold yr; lia). reflexivity.
  - rewrite forallb_app, V2. cbn [forallb andb]. unfold isdigit, between.
    destruct A as [A1 A2]. destruct B as [B1 B2]. destruct C as [C1 C2]. rewrite A2, B2, C2.
    repeat (apply andb_true_iff; split); try apply Z.leb_le; try lia.
  - exact T.
Qed.

(** ** Year-month-day texts *)
Definition ymd_toks : list tok := [TDir DY; TLit "-"; TDir Dm; TLit "-"; TDir Dd].
Lemma ymd_parse : parse_fmt ymd_fmt = Some ymd_toks. Proof. reflexivity. Qed.

Lemma matches_m m t r : 1 <= m <= 12 ->
  matches (TDir Dm :: TLit "-" :: t) (pad2 m ++ "-"%char :: r) =
  map (fun q => ((Dm, pad2 m) :: fst q, snd q)) (matches t r) ++ [].
Proof.
  intros H. apply matches_one. pattern m. apply (to_nat_case 1 13); [|lia]. clear m H.
  intros n H q. nat_cases n H.
Qed.
Lemma matches_d_end d : 1 <= d <= 31 ->
  hd_error (matches [TDir Dd] (pad2 d)) = Some ([(Dd, pad2 d)], []).
Proof.
  intros H. pattern d. apply (to_nat_case 1 32); [|lia]. clear d H. intros n H. nat_cases n H.
Qed.
Lemma int_sp_pad2 n : 0 <= n <= 99 -> int_sp (pad2 n) = n.
Proof.
  intros H. pattern n. apply (to_nat_case 0 100); [|lia]. clear n H. intros n H. nat_cases n H.
Qed.

Lemma strptime_ymd y m d : 1000 <= y <= 9999 -> 1 <= m <= 12 -> 1 <= d <= month_len y m ->
  strptime (strftime_ymd y m d) ymd_fmt = SpOk y m d 0 0 0 0 /\
  mk_datetime y m d 0 0 0 0 = Ok (ordinal y m d * us_day).
Proof.
  intros Hy Hm Hd.
  assert (D31 : month_len y m <= 31).
  { unfold month_len. destruct (m =? 2); [destruct (is_leap y); lia|].
    destruct ((m =? 4) || (m =? 6) || (m =? 9) || (m =? 11)); lia. }
  assert (K : mk_datetime y m d 0 0 0 0 = Ok (ordinal y m d * us_day)).
  { rewrite mk_datetime_ok by lia. f_equal. lia. }
  split; [|exact K].
  rewrite (strptime_hd _ _ _ ymd_parse). unfold ymd_toks, strftime_ymd. cbn [app].
  rewrite matches_Y by exact Hy. rewrite hd_map.
  change (matches (TLit "-" :: ?t) ("-"%char :: ?r)) with (matches t r).
  rewrite matches_m by exact Hm. rewrite hd_map. rewrite matches_d_end by lia.
  cbn [option_map fst snd]. unfold build. cbn [fold_left set_field fst snd fY fm fd fj fH fM fS ff].
  rewrite int_sp_dec4 by exact Hy. rewrite !int_sp_pad2 by lia. rewrite K.
  replace ((1 <=? y) && (y <=? 9999)) with true
    by (symmetry; apply andb_true_iff; rewrite !Z.leb_le; lia). reflexivity.
Qed.

(** ** Seconds of day *)
Lemma Qceiling_unique q n : (inject_Z n - 1 < q)%Q -> (q <= inject_Z n)%Q -> Qceiling q = n.
Proof.
  intros H1 H2. unfold Qceiling.
  rewrite (Qfloor_unique (- q) (- n)); [lia| |]; rewrite inject_Z_opp; lra.
Qed.
Lemma ceiling_bounds q : (inject_Z (Qceiling q) - 1 < q)%Q /\ (q <= inject_Z (Qceiling q))%Q.
Proof.
  unfold Qceiling. destruct (floor_bounds (- q)) as [A B]. rewrite inject_Z_opp. split; lra.
Qed.

Lemma add_sod_spec t q : 0 <= t -> (0 <= q)%Q -> t + Qceiling (q * 1000000) < max_us ->
  add_sod t (Some q) = Ok (t + Qceiling (q * 1000000)).
Proof.
  intros Ht H Hb. unfold add_sod. rewrite (proj2 (Qle_bool_iff 0 q) H).
  destruct (floor_bounds q) as [A B]. set (f := Qfloor q) in *.
  assert (F0 : 0 <= f).
  { apply Z_of_Q_lt. change (inject_Z 0) with 0%Q. lra. }
  destruct (ceiling_bounds (q * 1000000)) as [C1 C2]. set (N := Qceiling (q * 1000000)) in *.
  assert (FN : f * 1000000 <= N).
  { rewrite Zle_Qle, inject_Z_mult. change (inject_Z 1000000) with 1000000%Q. lra. }
  assert (U : forall a us, 0 <= a -> 0 <= us -> a + us < max_us -> add_us a us = Ok (a + us)).
  { intros a us Ha Hus Hs. unfold add_us.
    rewrite (proj2 (Z.leb_le 0 (a + us))), (proj2 (Z.ltb_lt (a + us) max_us)) by lia. reflexivity. }
  rewrite U by lia. cbn [bind].
  destruct (Qle_bool (q - inject_Z f) 0) eqn:E; cbn [negb].
  - apply Qle_bool_iff in E. f_equal. f_equal. symmetry.
    apply Qceiling_unique; rewrite inject_Z_mult; change (inject_Z 1000000) with 1000000%Q; lra.
  - assert (E' : ~ (q - inject_Z f <= 0)%Q) by (intros K; apply Qle_bool_iff in K; congruence).
    assert (X : Qceiling ((q - inject_Z f) * 1000000) = N - f * 1000000).
    { apply Qceiling_unique; unfold Zminus; rewrite inject_Z_plus, inject_Z_opp, inject_Z_mult;
        change (inject_Z 1000000) with 1000000%Q; lra. }
    rewrite X. rewrite U by lia. f_equal. lia.
Qed.

(** ** Length of formatted times *)
Lemma zlen_app {A} (a b : list A) : zlen (a ++ b) = zlen a + zlen b.
Proof. unfold zlen. rewrite app_length. lia. Qed.
Lemma zlen_cons {A} (a : A) l : zlen (a :: l) = 1 + zlen l.
Proof. unfold zlen. cbn [length]. lia. Qed.
Lemma zlen_nonneg {A} (l : list A) : 0 <= zlen l.
Proof. unfold zlen. lia. Qed.

Lemma dec_len y : 0 <= y <= 9999 -> zlen (dec y) <= 4.
Proof.
  intros H. destruct (Z_lt_ge_dec y 1000) as [L|L].
  - assert (E : forallb (fun n => zlen (dec (Z.of_nat n)) <=? 4) (seq 0 1000) = true)
      by (vm_compute; reflexivity).
    rewrite forallb_forall in E. replace y with (Z.of_nat (Z.to_nat y)) by lia.
    apply Z.leb_le, E, in_seq. lia.
  - destruct (dec_4 y ltac:(lia)) as [a [b [c [d [_ [_ [_ [_ [_ ->]]]]]]]]]. cbv. discriminate.
Qed.

Definition ext (c : ascii) : Z :=
  match assoc (String "%" (String c EmptyString))
    [("%a", 1); ("%A", 10); ("%b", 1); ("%B", 8); ("%Y", 2); ("%f", 4); ("%z", 3);
     ("%Z", 1); ("%j", 1); ("%c", 22); ("%x", 8); ("%X", 7)] with
  | Some n => n | None => 0 end.

Lemma wday_len w : 0 <= w <= 6 -> zlen (wday_name w) <= 9 /\ zlen (firstn 3 (wday_name w)) = 3.
Proof.
  intros H. assert (E : w = 0 \/ w = 1 \/ w = 2 \/ w = 3 \/ w = 4 \/ w = 5 \/ w = 6) by lia.
  destruct E as [->|[->|[->|[->|[->|[->| ->]]]]]]; split; cbv; congruence.
Qed.
Lemma month_name_len m : 1 <= m <= 12 -> zlen (month_name m) <= 9 /\ zlen (firstn 3 (month_name m)) = 3.
Proof.
  intros H. assert (M : m = 1 \/ m = 2 \/ m = 3 \/ m = 4 \/ m = 5 \/ m = 6 \/ m = 7 \/ m = 8 \/ m = 9 \/
              m = 10 \/ m = 11 \/ m = 12) by lia.
  destruct M as [->|[->|[->|[->|[->|[->|[->|[->|[->|[->|[->| ->]]]]]]]]]]]; split; cbv; congruence.
Qed.

Lemma pad_space_len n : zlen (pad_space n) = 2.
Proof. unfold pad_space. destruct (n <? 10); reflexivity. Qed.

Lemma some_inj {A} (a b : A) : Some a = Some b -> a = b.
Proof. congruence. Qed.

Lemma render_len c t r : valid_tm t -> render_dir c t = Some r -> zlen r <= 2 + ext c.
Proof.
  intros V H. destruct V as [V1 [V2 [V3 [V4 [V5 [V6 [V7 [V8 V9]]]]]]]].
  destruct (wday_len (t_wday t) V8) as [W1 W2]. destruct (month_name_len (t_mon t) V2) as [M1 M2].
  pose proof (dec_len (t_year t) ltac:(lia)) as Y.
  unfold render_dir in H.
  assert (HMS : zlen (hms t) = 8) by reflexivity.
  repeat match type of H with
  | (if Ascii.eqb c ?k then _ else _) = _ =>
      destruct (Ascii.eqb_spec c k) as [->|?];
      [apply some_inj in H; subst r;
       match goal with |- context [ext ?k] =>
         let v := eval vm_compute in (ext k) in change (ext k) with v end;
       try (destruct (t_hour t <? 12));
       rewrite ?zlen_app, ?W2, ?M2, ?HMS, ?pad_space_len;
       repeat match goal with |- context [zlen (s2l ?x)] =>
         let v := eval vm_compute in (zlen (s2l x)) in change (zlen (s2l x)) with v end;
       repeat match goal with |- context [zlen (pad2 ?x)] => change (zlen (pad2 x)) with 2 end;
       repeat match goal with |- context [zlen (pad3 ?x)] => change (zlen (pad3 x)) with 3 end;
       repeat match goal with |- context [zlen (pad6 ?x)] => change (zlen (pad6 x)) with 6 end;
       repeat match goal with |- context [zlen [?x]] => change (zlen [x]) with 1 end;
       try (change (zlen (@nil ascii)) with 0); lia|]
  end.
  discriminate H.
Qed.

Fixpoint ext_sum (ps : list piece) : Z :=
  match ps with
  | [] => 0
  | PDir c :: ps' => ext c + ext_sum ps'
  | PLit _ :: ps' => ext_sum ps'
  end.

Lemma fmt_text_cons p ps : fmt_text (p :: ps) = piece_text p ++ fmt_text ps.
Proof. reflexivity. Qed.

Lemma strftime_len ps t r : valid_tm t -> strftime ps t = Some r ->
  zlen r <= zlen (fmt_text ps) + ext_sum ps.
Proof.
  intros V. revert r. induction ps as [|p ps IH]; intros r H.
  - injection H as <-. cbv. discriminate.
  - rewrite fmt_text_cons, zlen_app. destruct p as [c|c]; cbn [strftime] in H; cbn [piece_text ext_sum].
    + destruct (strftime ps t) as [q|]; [|discriminate]. injection H as <-.
      specialize (IH _ eq_refl). rewrite !zlen_cons. change (zlen (@nil ascii)) with 0. lia.
    + destruct (render_dir c t) as [a|] eqn:Ea; [|discriminate].
      destruct (strftime ps t) as [q|]; [|discriminate]. injection H as <-.
      specialize (IH _ eq_refl). pose proof (render_len c t a V Ea).
      rewrite zlen_app, !zlen_cons. change (zlen (@nil ascii)) with 0. lia.
Qed.

Definition table : list (ascii * Z) :=
  [("a"%char, 1); ("A"%char, 10); ("b"%char, 1); ("B"%char, 8); ("Y"%char, 2); ("f"%char, 4);
   ("z"%char, 3); ("Z"%char, 1); ("j"%char, 1); ("c"%char, 22); ("x"%char, 8); ("X"%char, 7)].

Definition wsum (ps : list piece) : Z :=
  fold_right (fun e a => uses (fst e) ps * snd e + a) 0 table.

Lemma ext_table c : ext c = fold_right (fun e a => (if Ascii.eqb (fst e) c then snd e else 0) + a) 0 table.
Proof.
  unfold table. cbn [fold_right fst snd].
  destruct c as [[] [] [] [] [] [] [] []]; reflexivity.
Qed.

Lemma uses_cons c p ps : uses c (p :: ps) = (if is_dir c p then 1 else 0) + uses c ps.
Proof. unfold uses. cbn [filter]. destruct (is_dir c p); [apply zlen_cons|lia]. Qed.

Lemma wsum_cons l p ps :
  fold_right (fun e a => uses (fst e) (p :: ps) * snd e + a) 0 l =
  fold_right (fun e a => (if is_dir (fst e) p then snd e else 0) + a) 0 l +
  fold_right (fun e a => uses (fst e) ps * snd e + a) 0 l.
Proof.
  induction l as [|e l IH]; cbn [fold_right]; [reflexivity|]. rewrite IH, uses_cons.
  destruct (is_dir (fst e) p); lia.
Qed.

Lemma ext_sum_wsum ps : ext_sum ps = wsum ps.
Proof.
  induction ps as [|p ps IH]; [reflexivity|]. unfold wsum in *. rewrite wsum_cons, <- IH.
  destruct p as [c|c]; cbn [ext_sum is_dir]; [reflexivity|]. rewrite ext_table. reflexivity.
Qed.

Lemma prefix_app p s : prefix p (p ++ s) = true.
Proof. induction p as [|a p IH]; [reflexivity|]. cbn [app prefix]. now rewrite Ascii.eqb_refl, IH. Qed.

Lemma contains_app p a s : contains p (a ++ p ++ s) = true.
Proof.
  unfold contains. assert (H : exists n, find p (a ++ p ++ s) = Some n).
  { induction a as [|c a IH]; cbn [app].
    - exists O. destruct (p ++ s) as [|x w] eqn:E.
      + destruct p; [reflexivity|discriminate].
      + rewrite <- E. destruct (p ++ s) eqn:E2; cbn [find]; rewrite <- ?E2; now rewrite prefix_app.
    - destruct IH as [n IH]. cbn [find]. destruct (prefix p (c :: a ++ p ++ s)); [now exists O|].
      rewrite IH. now exists (S n). }
  destruct H as [n ->]. reflexivity.
Qed.

Lemma uses_contains c ps : 0 < uses c ps -> contains ["%"%char; c] (fmt_text ps) = true.
Proof.
  intros H. assert (E : exists a b, fmt_text ps = a ++ ["%"%char; c] ++ b).
  { induction ps as [|p ps IH]; [cbv in H; discriminate|].
    rewrite uses_cons in H. rewrite fmt_text_cons. destruct (is_dir c p) eqn:D.
    - destruct p as [k|k]; [discriminate|]. cbn [is_dir] in D. apply Ascii.eqb_eq in D. subst k.
      exists [], (fmt_text ps). reflexivity.
    - destruct (IH ltac:(lia)) as [a [b ->]]. exists (piece_text p ++ a), b.
      now rewrite <- app_assoc. }
  destruct E as [a [b ->]]. apply contains_app.
Qed.

Lemma fold_add l (f : str) n :
  fold_left (fun n p => if contains (fst p) f then n + snd p else n)
    (map (fun e : ascii * Z => (["%"%char; fst e], snd e)) l) n =
  n + fold_right (fun e a => (if contains ["%"%char; fst e] f then snd e else 0) + a) 0 l.
Proof.
  revert n. induction l as [|e l IH]; intros n; cbn [map fold_left fold_right fst snd]; [lia|].
  rewrite IH. destruct (contains _ f); lia.
Qed.

Lemma fmt_len_unfold f : get_datetime_fmt_len f =
  zlen f + fold_right (fun e a => (if contains ["%"%char; fst e] f then snd e else 0) + a) 0 table.
Proof. unfold get_datetime_fmt_len. apply (fold_add table f (zlen f)). Qed.

Lemma fmt_len_bound ps t r : valid_tm t ->
  (forall c, In c (map fst table) -> uses c ps <= 1) ->
  strftime ps t = Some r -> zlen r <= get_datetime_fmt_len (fmt_text ps).
Proof.
  intros V U H. apply strftime_len in H; [|exact V]. rewrite ext_sum_wsum in H.
  rewrite fmt_len_unfold. unfold wsum in H.
  assert (K : forall l, (forall e, In e l -> In e table) ->
    fold_right (fun e a => uses (fst e) ps * snd e + a) 0 l <=
    fold_right (fun e a => (if contains ["%"%char; fst e] (fmt_text ps) then snd e else 0) + a) 0 l).
  { induction l as [|e l IH]; intros Hl; cbn [fold_right]; [lia|].
    specialize (IH (fun x Hx => Hl x (or_intror Hx))).
    assert (T : In e table) by (apply Hl; now left).
    assert (P : 0 <= snd e).
    { assert (F : Forall (fun e => 0 <= snd e) table) by (repeat constructor; cbn; lia).
      rewrite Forall_forall in F. now apply F. }
    specialize (U (fst e) (in_map fst _ _ T)).
    assert (0 <= uses (fst e) ps) by apply zlen_nonneg.
    destruct (Z.eq_dec (uses (fst e) ps) 0) as [Z0|Z0].
    - rewrite Z0. destruct (contains _ _); lia.
    - rewrite uses_contains by lia. nia. }
  specialize (K table (fun e He => He)). lia.
Qed.
