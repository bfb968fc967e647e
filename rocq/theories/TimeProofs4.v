(** Proofs about the time formats, part 4: convert_time. *)
From Coq Require Import String Ascii ZArith QArith Qround List Bool Lia Lqa.
From Verif Require Import PyBase TimeModel TimeSpec TimeProofs TimeProofs2 TimeProofs3.
Import ListNotations.
Open Scope string_scope.
Open Scope list_scope.
Open Scope Z_scope.

(** ** Date texts given by their digits *)
Lemma date4_value s y : date4 s y -> 0 <= y <= 9999 /\
  exists a b c d, s = [dig a; dig b; dig c; dig d] /\ 0 <= a <= 9 /\ 0 <= b <= 9 /\ 0 <= c <= 9 /\
    0 <= d <= 9 /\ y = 1000 * a + 100 * b + 10 * c + d.
Proof.
  intros [c1 [c2 [c3 [c4 [a [b [c [d [E [A [B [C [D F]]]]]]]]]]]]]. subst s.
  pose proof A as [A1 _]. pose proof B as [B1 _]. pose proof C as [C1 _]. pose proof D as [D1 _].
  apply digit_is_dig in A. apply digit_is_dig in B. apply digit_is_dig in C. apply digit_is_dig in D.
  subst. split; [lia|]. exists a, b, c, d. auto 10.
Qed.

Lemma date2_pad2 s n : date2 s n -> s = pad2 n /\ 0 <= n <= 99.
Proof.
  intros [c1 [c2 [a [b [E [A [B F]]]]]]]. subst s.
  pose proof A as [A1 _]. pose proof B as [B1 _].
  apply digit_is_dig in A. apply digit_is_dig in B. subst. split; [|lia]. unfold pad2.
  replace ((10 * a + b) / 10) with a by (apply (Z.div_unique _ 10 _ b); lia).
  replace ((10 * a + b) mod 10) with b by (apply (Z.mod_unique _ 10 a); lia). reflexivity.
Qed.

Lemma matches_Y4 s y t r : date4 s y ->
  matches (TDir DY :: t) (s ++ r) = map (fun m => ((DY, s) :: fst m, snd m)) (matches t r) ++ [].
Proof.
  intros H. destruct (date4_value s y H) as [_ [a [b [c [d [-> [A [B [C [D _]]]]]]]]]].
  cbn [app matches]. rewrite cand_Y by assumption. reflexivity.
Qed.
Lemma int_sp_4 s y : date4 s y -> int_sp s = y.
Proof.
  intros H. destruct (date4_value s y H) as [_ [a [b [c [d [-> [A [B [C [D F]]]]]]]]]].
  rewrite dval_dec4 by assumption. lia.
Qed.

Lemma month_len_31 y m : month_len y m <= 31.
Proof.
  unfold month_len. destruct (m =? 2); [destruct (is_leap y); lia|].
  destruct ((m =? 4) || (m =? 6) || (m =? 9) || (m =? 11)); lia.
Qed.

Lemma strptime_date y m d s : date_text y m d s -> 1 <= y -> 1 <= m <= 12 -> 1 <= d <= month_len y m ->
  strptime s ymd_fmt = SpOk y m d 0 0 0 0 /\
  mk_datetime y m d 0 0 0 0 = Ok (ordinal y m d * us_day).
Proof.
  intros [sy [sm [sd [Y [M [D E]]]]]] Hy Hm Hd. subst s.
  pose proof (month_len_31 y m) as D31. destruct (date4_value sy y Y) as [Y2 _].
  apply date2_pad2 in M. apply date2_pad2 in D. destruct M as [-> _]. destruct D as [-> _].
  assert (K : mk_datetime y m d 0 0 0 0 = Ok (ordinal y m d * us_day)).
  { rewrite mk_datetime_ok by lia. f_equal. lia. }
  split; [|exact K].
  rewrite (strptime_hd _ _ _ ymd_parse). unfold ymd_toks. cbn [app].
  rewrite (matches_Y4 sy y) by exact Y. rewrite hd_map.
  change (matches (TLit "-" :: ?t) ("-"%char :: ?r)) with (matches t r).
  rewrite matches_m by exact Hm. rewrite hd_map. rewrite matches_d_end by lia.
  cbn [option_map fst snd]. unfold build. cbn [fold_left set_field fst snd fY fm fd fj fH fM fS ff].
  rewrite (int_sp_4 sy y Y). rewrite !int_sp_pad2 by lia. rewrite K.
  replace ((1 <=? y) && (y <=? 9999)) with true
    by (symmetry; apply andb_true_iff; rewrite !Z.leb_le; lia). reflexivity.
Qed.

(** First match, directive by directive. *)
Lemma hd_dir d t x r h :
  hd_error (candidates d (x ++ r)) = Some (x, r) -> hd_error (matches t r) = Some h ->
  hd_error (matches (TDir d :: t) (x ++ r)) = Some ((d, x) :: fst h, snd h).
Proof.
  intros C M. cbn [matches]. destruct (candidates d (x ++ r)) as [|p l]; [discriminate|].
  injection C as ->. cbn [flat_map fst snd]. destruct (matches t r) as [|k ks]; [discriminate|].
  injection M as ->. reflexivity.
Qed.
Lemma hd_lit c t r h : hd_error (matches t r) = Some h ->
  hd_error (matches (TLit c :: t) (c :: r)) = Some h.
Proof. intros M. cbn [matches]. now rewrite Ascii.eqb_refl. Qed.
Lemma hd_space t a r h : isspace a = false -> hd_error (matches t (a :: r)) = Some h ->
  hd_error (matches (TSpace :: t) (" "%char :: a :: r)) = Some h.
Proof.
  intros A M. change (hd_error (flat_map (matches t) (spaces (" "%char :: a :: r))) = Some h).
  rewrite spaces_one by exact A. cbn [flat_map]. now rewrite app_nil_r.
Qed.

Lemma cand_m n r : 1 <= n <= 12 -> hd_error (candidates Dm (pad2 n ++ r)) = Some (pad2 n, r).
Proof. intros H. pattern n. apply (to_nat_case 1 13); [|lia]. clear n H. intros n H. nat_cases n H. Qed.
Lemma cand_d n r : 1 <= n <= 31 -> hd_error (candidates Dd (pad2 n ++ r)) = Some (pad2 n, r).
Proof. intros H. pattern n. apply (to_nat_case 1 32); [|lia]. clear n H. intros n H. nat_cases n H. Qed.
Lemma cand_H n r : 0 <= n <= 23 -> hd_error (candidates DH (pad2 n ++ r)) = Some (pad2 n, r).
Proof. intros H. pattern n. apply (to_nat_case 0 24); [|lia]. clear n H. intros n H. nat_cases n H. Qed.
Lemma cand_M n r : 0 <= n <= 59 -> hd_error (candidates DM (pad2 n ++ r)) = Some (pad2 n, r).
Proof. intros H. pattern n. apply (to_nat_case 0 60); [|lia]. clear n H. intros n H. nat_cases n H. Qed.
Lemma cand_S n r : 0 <= n <= 61 -> hd_error (candidates DS (pad2 n ++ r)) = Some (pad2 n, r).
Proof. intros H. pattern n. apply (to_nat_case 0 62); [|lia]. clear n H. intros n H. nat_cases n H. Qed.

Lemma strptime_date_time y m d H M Sc sd st rest : date_text y m d sd -> tod_text H M Sc st ->
  1 <= y -> 1 <= m <= 12 -> 1 <= d <= month_len y m ->
  0 <= H <= 23 -> 0 <= M <= 59 -> 0 <= Sc <= 61 ->
  strptime (sd ++ " "%char :: st ++ rest) "%Y-%m-%d %H:%M:%S" =
    match rest with
    | [] => if Sc <=? 59 then SpOk y m d H M Sc 0 else SpErr
    | _ => SpUnconverted rest
    end /\
  (Sc <= 59 -> mk_datetime y m d H M Sc 0 =
     Ok (ordinal y m d * us_day + ((H * 60 + M) * 60 + Sc) * 1000000)).
Proof.
  intros [sy [sm [sd' [Y [Mo [D E]]]]]] [sH [sM [sS [A [B [C F]]]]]] Hy Hm Hd HH HM HS. subst sd st.
  pose proof (month_len_31 y m) as D31. destruct (date4_value sy y Y) as [Y2 Y3].
  apply date2_pad2 in Mo. apply date2_pad2 in D. apply date2_pad2 in A. apply date2_pad2 in B.
  apply date2_pad2 in C. destruct Mo as [-> _]. destruct D as [-> _]. destruct A as [-> _].
  destruct B as [-> _]. destruct C as [-> _].
  assert (K : Sc <= 59 -> mk_datetime y m d H M Sc 0 =
            Ok (ordinal y m d * us_day + ((H * 60 + M) * 60 + Sc) * 1000000)).
  { intros L. rewrite mk_datetime_ok by lia. f_equal. lia. }
  split; [|exact K].
  assert (PF : parse_fmt "%Y-%m-%d %H:%M:%S" =
    Some [TDir DY; TLit "-"; TDir Dm; TLit "-"; TDir Dd; TSpace; TDir DH; TLit ":"; TDir DM; TLit ":"; TDir DS])
    by reflexivity.
  rewrite (strptime_hd _ _ _ PF). rewrite <- !app_assoc. cbn [app].
  rewrite <- ?app_assoc. cbn [app]. rewrite <- ?app_assoc. cbn [app].
  assert (CY : forall r, hd_error (candidates DY (sy ++ r)) = Some (sy, r)).
  { intros r. destruct Y3 as [a [b [c [e [-> [Y4 [Y5 [Y6 [Y7 _]]]]]]]]]. cbn [app].
    now rewrite cand_Y. }
  erewrite hd_dir; [|apply CY|].
  2:{ apply hd_lit. apply hd_dir; [apply cand_m; lia|]. apply hd_lit.
      apply hd_dir; [apply cand_d; lia|].
      assert (NS : isspace (dig (H / 10)) = false).
      { apply dig_not_space. split; [apply Z.div_pos; lia|]. apply Z.lt_succ_r. apply Z.div_lt_upper_bound; lia. }
      apply (hd_space _ (dig (H / 10)) (dig (H mod 10) :: _) _ NS).
      apply (hd_dir DH _ (pad2 H)); [apply cand_H; lia|]. apply hd_lit.
      apply hd_dir; [apply cand_M; lia|]. apply hd_lit.
      apply hd_dir; [apply cand_S; lia|]. cbn [matches hd_error]. reflexivity. }
  cbn [option_map fst snd]. unfold build. cbn [fold_left set_field fst snd fY fm fd fj fH fM fS ff].
  destruct rest as [|x w]; [|reflexivity].
  rewrite (int_sp_4 sy y Y). rewrite !int_sp_pad2 by lia.
  replace ((1 <=? y) && (y <=? 9999)) with true
    by (symmetry; apply andb_true_iff; rewrite !Z.leb_le; lia).
  destruct (Sc <=? 59) eqn:S59.
  - rewrite K by (now apply Z.leb_le). reflexivity.
  - unfold mk_datetime. rewrite S59. rewrite !andb_false_r. reflexivity.
Qed.

(** ** convert_time *)
Definition default_fmt : str := "%Y-%m-%d %H:%M:%S".

Lemma cut_default : cut_time " SOD" (cut_time " %H:%M:%S" default_fmt) = ymd_fmt.
Proof. reflexivity. Qed.

Lemma convert_date_sod y m d s sod fmt :
  date_text y m d s -> 1 <= y -> 1 <= m <= 12 -> 1 <= d <= month_len y m ->
  cut_time " SOD" (cut_time " %H:%M:%S" fmt) = ymd_fmt ->
  convert_time None None None sod (Some s) None fmt = add_sod (ordinal y m d * us_day) sod.
Proof.
  intros T Hy Hm Hd F. unfold convert_time. rewrite F.
  destruct (strptime_date y m d s T Hy Hm Hd) as [E K]. rewrite E. cbn [sp_time]. rewrite K. reflexivity.
Qed.

Lemma add_sod_overflow t q : 0 <= t < max_us -> (0 <= q)%Q -> max_us <= t + Qceiling (q * 1000000) ->
  add_sod t (Some q) = Err OverflowError.
Proof.
  intros Ht H Hb. unfold add_sod. rewrite (proj2 (Qle_bool_iff 0 q) H).
  destruct (floor_bounds q) as [A B]. set (f := Qfloor q) in *.
  assert (F0 : 0 <= f) by (apply Z_of_Q_lt; change (inject_Z 0) with 0%Q; lra).
  destruct (ceiling_bounds (q * 1000000)) as [C1 C2]. set (N := Qceiling (q * 1000000)) in *.
  unfold add_us at 1.
  destruct ((0 <=? t + f * 1000000) && (t + f * 1000000 <? max_us)) eqn:E; [|reflexivity].
  apply andb_true_iff in E. rewrite Z.leb_le, Z.ltb_lt in E. cbn [bind].
  destruct (Qle_bool (q - inject_Z f) 0) eqn:E2; cbn [negb].
  - exfalso. apply Qle_bool_iff in E2.
    assert (X : N = f * 1000000).
    { apply Qceiling_unique; rewrite inject_Z_mult; change (inject_Z 1000000) with 1000000%Q; lra. }
    lia.
  - assert (E' : ~ (q - inject_Z f <= 0)%Q) by (intros K; apply Qle_bool_iff in K; congruence).
    assert (X : Qceiling ((q - inject_Z f) * 1000000) = N - f * 1000000).
    { apply Qceiling_unique; unfold Zminus; rewrite inject_Z_plus, inject_Z_opp, inject_Z_mult;
        change (inject_Z 1000000) with 1000000%Q; lra. }
    rewrite X. unfold add_us. rewrite (proj2 (Z.ltb_ge _ max_us)) by lia. now rewrite andb_false_r.
Qed.

Lemma mk_datetime_inv y m d H M Sc f t : mk_datetime y m d H M Sc f = Ok t ->
  1 <= y <= 9999 /\ 1 <= m <= 12 /\ 1 <= d <= month_len y m.
Proof.
  unfold mk_datetime. destruct (_ && _) eqn:E; [|discriminate]. intros _.
  repeat (apply andb_true_iff in E; destruct E as [E ?]).
  repeat match goal with K : (_ <=? _) = true |- _ => apply Z.leb_le in K end. lia.
Qed.

Lemma of_doy_year y j : 1 <= j <= 366 -> let '(y', _, _) := of_doy y j in y <= y'.
Proof.
  intros Hj. pose proof (of_doy_spec y j Hj) as P. destruct (of_doy y j) as [[y' m] d].
  destruct P as [P1 P2]. destruct (Z_le_gt_dec j (year_len y)) as [L|L].
  - destruct (P1 L) as [-> _]. lia.
  - specialize (P2 ltac:(lia)). lia.
Qed.

Lemma convert_yyddd v ds a b c x y z tail sod date fmt :
  written v ds -> is_digit_of a x -> is_digit_of b y -> is_digit_of c z ->
  (tail = [] \/ exists w, tail = "."%char :: w) ->
  let j := 100 * x + 10 * y + z in
  let yr := 1900 + v in
  yr <= 9999 -> 1 <= j <= 366 -> (yr < 9999 \/ j <= 365) ->
  cut_time " SOD" (cut_time " %H:%M:%S" (yyddd_fmt fmt)) = ymd_fmt ->
  convert_time None None (Some (ds ++ [a; b; c] ++ tail)) sod date None fmt =
    add_sod ((days_before_year yr + (j - 1)) * us_day) sod.
Proof.
  intros W A B C T j yr Hyr Hj H9 F. unfold convert_time.
  rewrite (yyddd_main v ds a b c x y z tail W A B C T). fold j yr. cbn [bind].
  destruct (written_spec v ds W) as [V0 _].
  pose proof (strptime_yj yr j ltac:(unfold yr in *; lia) ltac:(lia)) as P. cbv zeta in P.
  replace ((1 <=? j) && (j <=? 366)) with true in P
    by (symmetry; apply andb_true_iff; rewrite !Z.leb_le; lia).
  replace ((yr =? 9999) && (j =? 366)) with false in P
    by (symmetry; apply andb_false_iff; rewrite !Z.eqb_neq; lia).
  pose proof (of_doy_year yr j Hj) as G.
  destruct (of_doy yr j) as [[y' m] d]. destruct P as [P K]. rewrite P.
  destruct (mk_datetime_inv _ _ _ _ _ _ _ _ K) as [I1 [I2 I3]].
  destruct (strptime_ymd y' m d ltac:(lia) I2 I3) as [S1 S2]. rewrite F, S1. cbn [sp_time].
  rewrite K. reflexivity.
Qed.

(** Trailing text. *)
Lemma upto_none c s : ~ In c s -> upto c s = s.
Proof.
  induction s as [|a s IH]; intros H; [reflexivity|]. cbn [upto].
  destruct (Ascii.eqb_spec a c) as [->|N]; [exfalso; apply H; now left|].
  rewrite IH; [reflexivity|]. intros K. apply H. now right.
Qed.
Lemma upto_length c s : In c s -> (length (upto c s) < length s)%nat.
Proof.
  induction s as [|a s IH]; intros H; [destruct H|]. cbn [upto].
  destruct (Ascii.eqb_spec a c) as [->|N]; cbn [length]; [lia|].
  destruct H as [->|H]; [congruence|]. specialize (IH H). lia.
Qed.

Lemma drop_last_exact s r : r <> [] -> drop_last (length r) (s ++ r) = s.
Proof.
  intros H. unfold drop_last. destruct (length r) eqn:E; [destruct r; [congruence|discriminate]|].
  rewrite app_length, <- E. replace (length s + length r - length r)%nat with (length s) by lia.
  rewrite firstn_app, firstn_all. replace (length s - length s)%nat with O by lia. apply app_nil_r.
Qed.

Lemma drop_last_part s r k : (k < length r)%nat -> (0 < k)%nat ->
  exists w, w <> [] /\ drop_last k (s ++ r) = s ++ w.
Proof.
  intros H H0. exists (firstn (length r - k) r). split.
  - destruct r; [cbn in H; lia|]. cbn [length] in *.
    destruct (S (length r) - k)%nat eqn:E; [lia|]. discriminate.
  - unfold drop_last. destruct k; [lia|]. rewrite app_length.
    replace (length s + length r - S k)%nat with (length s + (length r - S k))%nat by lia.
    rewrite firstn_app. rewrite firstn_all2 by lia. f_equal. f_equal. lia.
Qed.

Lemma strptime_empty f : parse_fmt f = Some [TDir DY; TLit "-"; TDir Dm; TLit "-"; TDir Dd; TSpace; TDir DH; TLit ":"; TDir DM; TLit ":"; TDir DS] ->
  strptime [] f = SpErr.
Proof. intros H. apply (hd_none_err _ _ _ H). reflexivity. Qed.

Lemma convert_date_tod y m d H M Sc sd st rest sod :
  date_text y m d sd -> tod_text H M Sc st ->
  1 <= y -> 1 <= m <= 12 -> 1 <= d <= month_len y m ->
  0 <= H <= 23 -> 0 <= M <= 59 -> 0 <= Sc <= 59 ->
  let t := ordinal y m d * us_day + ((H * 60 + M) * 60 + Sc) * 1000000 in
  convert_time None None None sod (Some sd) (Some (st ++ rest)) default_fmt =
    match rest with
    | [] => add_sod t sod
    | _ => if in_dec ascii_dec " "%char rest then Err ValueError else Ok t
    end.
Proof.
  intros Dt Tt Hy Hm Hd HH HM HS t. unfold convert_time. cbn [app].
  pose proof (fun r => strptime_date_time y m d H M Sc sd st r Dt Tt Hy Hm Hd HH HM ltac:(lia)) as P.
  unfold default_fmt in *. destruct (P rest) as [P1 P2]. rewrite P1. specialize (P2 ltac:(lia)).
  assert (L : (Sc <=? 59) = true) by (apply Z.leb_le; lia).
  destruct rest as [|x w].
  - rewrite L. cbn [sp_time]. rewrite P2. reflexivity.
  - cbn [on_unconverted]. unfold last_piece. rewrite rev_length.
    set (r := x :: w) in *.
    assert (E : sd ++ " "%char :: st ++ r = (sd ++ " "%char :: st) ++ r)
      by (rewrite <- app_assoc; reflexivity).
    rewrite E. destruct (in_dec ascii_dec " "%char r) as [I|I].
    + assert (U : (length (upto " " (rev r)) < length r)%nat).
      { rewrite <- (rev_length r). apply upto_length. now apply -> in_rev. }
      destruct (length (upto " " (rev r))) as [|k] eqn:K.
      * cbn [drop_last]. rewrite strptime_empty by reflexivity. reflexivity.
      * destruct (drop_last_part (sd ++ " "%char :: st) r (S k) U ltac:(lia)) as [u [U1 U2]].
        rewrite U2. rewrite <- app_assoc. cbn [app]. destruct (P u) as [Pu _]. rewrite Pu.
        destruct u; [congruence|reflexivity].
    + rewrite upto_none by (rewrite <- in_rev; exact I). rewrite rev_length.
      rewrite drop_last_exact by (unfold r; discriminate).
      destruct (P []) as [P0 _]. rewrite app_nil_r in P0. rewrite P0, L. cbn [sp_time]. exact P2.
Qed.
