(** Proofs about the text of numbers, times and lines. *)
From Coq Require Import String Ascii ZArith QArith Qabs Qround List Bool Lia Lqa Znumtheory.
From Verif Require Import PyBase TimeModel TimeSpec TimeProofs TimeProofs2 TimeProofs3 TimeProofs4 TextSpec TextProofs FilesModel SmagModel SmagSpec CycleModel CycleSpec OutputModel OutputSpec.
Import ListNotations.
Open Scope string_scope.
Open Scope list_scope.
Open Scope Z_scope.

(** ** Digits *)
Lemma digit_of n : 0 <= n <= 9 -> is_digit_of (dig n) n.
Proof. intros H. split; [exact H|apply code_dig; exact H]. Qed.
Lemma mod10 n : 0 <= n mod 10 <= 9.
Proof. pose proof (Z.mod_pos_bound n 10 ltac:(lia)). lia. Qed.
Lemma written_dec n : 0 <= n -> written n (dec n).
Proof.
  intros H. pattern n. apply Zlt_0_ind; [|exact H]. clear n H. intros n IH H. rewrite dec_unfold by exact H. destruct (n <? 10) eqn:E.
  - apply Z.ltb_lt in E. constructor. apply digit_of. lia.
  - apply Z.ltb_ge in E. rewrite (Z.div_mod n 10) at 1 by lia. constructor; [|apply digit_of, mod10].
    apply IH. split; [apply Z.div_pos; lia|apply Z.div_lt; lia].
Qed.
Lemma written_padn n : forall z, 0 <= z < 10 ^ Z.of_nat (S n) -> written z (padn (S n) z).
Proof.
  induction n as [|n IH]; intros z H.
  - change (10 ^ Z.of_nat 1) with 10 in H. cbn [padn app]. rewrite Z.mod_small by lia. constructor. apply digit_of. lia.
  - change (padn (S (S n)) z) with (padn (S n) (z / 10) ++ [dig (z mod 10)]). rewrite (Z.div_mod z 10) at 1 by lia.
    constructor; [|apply digit_of, mod10]. apply IH.
    rewrite (Nat2Z.inj_succ (S n)), Z.pow_succ_r in H by lia. split; [apply Z.div_pos; lia|apply Z.div_lt_upper_bound; lia].
Qed.
Lemma padn_length n : forall z, length (padn n z) = n.
Proof. induction n as [|n IH]; intros z; [reflexivity|]. cbn [padn]. rewrite app_length, IH. cbn [length]. lia. Qed.
Lemma fmt_d_integer z : integer z (fmt_d z).
Proof.
  unfold fmt_d. destruct (z <? 0) eqn:E.
  - apply Z.ltb_lt in E. right. exists (dec (- z)). split; [reflexivity|apply written_dec; lia].
  - apply Z.ltb_ge in E. left. apply written_dec. exact E.
Qed.

(** ** Numbers with decimals *)
Lemma round_nonneg q : (0 <= q)%Q -> 0 <= round_half_even q.
Proof.
  intros H. unfold round_half_even. destruct (floor_bounds q) as [A B]. assert (F : 0 <= Qfloor q) by (change 0 with (Qfloor 0); apply Qfloor_resp_le; exact H).
  destruct (_ && _); lia.
Qed.
Lemma fixed_decimal n m : 0 <= m -> decimal (S n) m (dec (m / 10 ^ Z.of_nat (S n)) ++ "."%char :: padn (S n) (m mod 10 ^ Z.of_nat (S n))).
Proof.
  intros H. assert (P : 0 < 10 ^ Z.of_nat (S n)) by (apply Z.pow_pos_nonneg; lia).
  exists (dec (m / 10 ^ Z.of_nat (S n))), (padn (S n) (m mod 10 ^ Z.of_nat (S n))), (m / 10 ^ Z.of_nat (S n)), (m mod 10 ^ Z.of_nat (S n)).
  split; [reflexivity|]. split; [apply written_dec, Z.div_pos; lia|]. split; [apply written_padn, Z.mod_pos_bound; exact P|]. split; [apply padn_length|].
  rewrite Z.mul_comm. apply Z.div_mod. lia.
Qed.
Lemma fixed_shows n x : shows (S n) x (fixed (S n) x).
Proof.
  destruct x as [| |q|]; try reflexivity. unfold fixed. set (p := (inject_Z (10 ^ Z.of_nat (S n)))%Q).
  assert (P : (0 < p)%Q). { unfold p. change 0%Q with (inject_Z 0). rewrite <- Zlt_Qlt. apply Z.pow_pos_nonneg; lia. }
  assert (A : (0 <= Qabs q * p)%Q). { apply Qmult_le_0_compat; [apply Qabs_nonneg|lra]. }
  pose proof (round_nonneg _ A) as N. destruct (round_half_even_bounds _ A) as [B1 B2].
  set (m := round_half_even (Qabs q * p)) in *. unfold shows. fold p. destruct (Qle_bool 0 q) eqn:E.
  - apply Qle_bool_iff in E. exists m. split; [left; apply fixed_decimal; exact N|]. rewrite Qabs_pos in B1, B2 by exact E.
    apply Qabs_case; intros _; lra.
  - assert (L : (q < 0)%Q). { apply Qnot_le_lt. intros K. apply Qle_bool_iff in K. congruence. }
    exists (- m). split; [right; eexists; split; [reflexivity|]; rewrite Z.opp_involutive; apply fixed_decimal; exact N|].
    rewrite Qabs_neg in B1, B2 by lra. rewrite inject_Z_opp. apply Qabs_case; intros _; lra.
Qed.

(** ** Words *)
Lemma digit_word c n : is_digit_of c n -> isspace c = false.
Proof. intros [A B]. unfold isspace. rewrite B. repeat (apply orb_false_iff; split); try (apply andb_false_iff); try (apply Z.eqb_neq; lia); right; apply Z.leb_gt; lia. Qed.
Lemma written_word v s : written v s -> word s.
Proof.
  induction 1 as [c n D|s c v n W [IH1 IH2] D]; split; try discriminate.
  - constructor; [apply (digit_word c n D)|constructor].
  - destruct s; discriminate.
  - apply Forall_app. split; [exact IH2|]. constructor; [apply (digit_word c n D)|constructor].
Qed.
Lemma word_cons c s : isspace c = false -> word s -> word (c :: s).
Proof. intros C [_ W]. split; [discriminate|constructor; assumption]. Qed.
Lemma word_app s t : word s -> word t -> word (s ++ t).
Proof. intros [N A] [_ B]. split; [destruct s; [contradiction|discriminate]|apply Forall_app; split; assumption]. Qed.
Lemma integer_word z s : integer z s -> word s.
Proof. intros [W|(t & -> & W)]; [exact (written_word _ _ W)|apply word_cons; [reflexivity|exact (written_word _ _ W)]]. Qed.
Lemma decimal_word n z s : decimal n z s -> word s.
Proof. intros (w & f & a & b & -> & A & B & _). apply word_app; [exact (written_word _ _ A)|]. apply word_cons; [reflexivity|exact (written_word _ _ B)]. Qed.
Lemma shows_word n x s : shows n x s -> word s.
Proof.
  assert (K : forall t : string, wordb (s2l t) = true -> word (s2l t)) by (intros t; apply wordb_word).
  destruct x as [| |q|]; cbn [shows]; try (intros ->; apply K; reflexivity). intros (z & [D|(t & -> & D)] & _); [exact (decimal_word _ _ _ D)|].
  apply word_cons; [reflexivity|exact (decimal_word _ _ _ D)].
Qed.
Lemma text_line_cons w r : r <> [] -> text_line (w :: r) = w ++ " "%char :: text_line r.
Proof. destruct r; [contradiction|reflexivity]. Qed.
Lemma text_line_spaced ws : ws <> [] -> Forall word ws -> spaced ws (text_line ws).
Proof.
  intros N F. induction F as [|w r W F IH]; [contradiction|]. destruct r as [|w' r].
  - cbn [text_line]. apply (sp_last [] w [newline]); [constructor|exact W|]. constructor; [reflexivity|constructor].
  - rewrite text_line_cons by discriminate. apply (sp_word [] w " "%char (w' :: r)); [constructor|exact W|reflexivity|]. apply IH. discriminate.
Qed.

(** ** Times *)
Lemma dby_mono y y' : y <= y' -> days_before_year y <= days_before_year y'.
Proof.
  intros H. replace y' with (y + Z.of_nat (Z.to_nat (y' - y))) by lia. induction (Z.to_nat (y' - y)) as [|n IH]; [rewrite Z.add_0_r; lia|].
  rewrite Nat2Z.inj_succ, <- Z.add_1_r, Z.add_assoc, days_before_next. unfold year_len. destruct (is_leap _); lia.
Qed.
Lemma dby_bounds y : 1 <= y -> 365 * (y - 1) <= days_before_year y <= 366 * (y - 1).
Proof.
  intros H. replace y with (1 + Z.of_nat (Z.to_nat (y - 1))) by lia. induction (Z.to_nat (y - 1)) as [|n IH]; [split; reflexivity || (cbn; lia)|].
  rewrite Nat2Z.inj_succ, <- Z.add_1_r, Z.add_assoc, days_before_next. unfold year_len. destruct (is_leap _); lia.
Qed.
Lemma year_from_spec fuel : forall y days, days_before_year y <= days < days_before_year (y + Z.of_nat fuel + 1) -> 
  days_before_year (year_from fuel y days) <= days < days_before_year (year_from fuel y days + 1) /\ y <= year_from fuel y days.
Proof.
  induction fuel as [|f IH]; intros y days H; cbn [year_from].
  - rewrite Nat2Z.inj_0, Z.add_0_r in H. split; [exact H|lia].
  - destruct (days_before_year (y + 1) <=? days) eqn:E.
    + apply Z.leb_le in E. destruct (IH (y + 1) days) as [A B]; [|split; [exact A|lia]]. split; [exact E|]. replace (y + 1 + Z.of_nat f + 1) with (y + Z.of_nat (S f) + 1) by lia. lia.
    + apply Z.leb_gt in E. split; [lia|lia].
Qed.
Lemma year_of_spec days : 0 <= days -> days_before_year (year_of days) <= days < days_before_year (year_of days + 1) /\ 1 <= year_of days.
Proof.
  intros H. unfold year_of. assert (D : 0 <= days / 366) by (apply Z.div_pos; lia).
  pose proof (Z.mul_div_le days 366 ltac:(lia)) as L. pose proof (Z.mul_succ_div_gt days 365 ltac:(lia)) as G.
  assert (C : days / 366 <= days / 365) by (apply Z.div_le_compat_l; lia).
  destruct (year_from_spec (S (Z.to_nat (days / 365 - days / 366))) (days / 366 + 1) days) as [A B].
  - pose proof (dby_bounds (days / 366 + 1) ltac:(lia)) as B1. split; [lia|].
    rewrite Nat2Z.inj_succ, Z2Nat.id by lia. replace (days / 366 + 1 + Z.succ (days / 365 - days / 366) + 1) with (days / 365 + 3) by lia.
    pose proof (dby_bounds (days / 365 + 3) ltac:(lia)) as B2. lia.
  - split; [exact A|lia].
Qed.
Lemma padn2 n : 0 <= n <= 99 -> date2 (padn 2 n) n.
Proof.
  intros H. exists (dig (n / 10 mod 10)), (dig (n mod 10)), (n / 10 mod 10), (n mod 10). cbn [padn app]. split; [reflexivity|]. split; [apply digit_of, mod10|].
  split; [apply digit_of, mod10|]. rewrite (Z.mod_small (n / 10)); [apply Z.div_mod; lia|]. split; [apply Z.div_pos; lia|apply Z.div_lt_upper_bound; lia].
Qed.
Lemma padn4 n : 0 <= n <= 9999 -> date4 (padn 4 n) n.
Proof.
  intros H. exists (dig (n / 10 / 10 / 10 mod 10)), (dig (n / 10 / 10 mod 10)), (dig (n / 10 mod 10)), (dig (n mod 10)),
    (n / 10 / 10 / 10 mod 10), (n / 10 / 10 mod 10), (n / 10 mod 10), (n mod 10). cbn [padn app].
  split; [reflexivity|]. do 4 (split; [apply digit_of, mod10|]). rewrite !Z.div_div by lia. change (10 * 10) with 100. change (10 * (10 * 10)) with 1000. 
  pose proof (Z.div_mod n 10 ltac:(lia)). pose proof (Z.div_mod (n / 10) 10 ltac:(lia)) as A. pose proof (Z.div_mod (n / 10 / 10) 10 ltac:(lia)) as B.
  rewrite !Z.div_div in * by lia. change (10 * 10) with 100 in *. change (100 * 10) with 1000 in *.
  rewrite (Z.mod_small (n / 1000)); [lia|]. split; [apply Z.div_pos; lia|apply Z.div_lt_upper_bound; lia].
Qed.
(** The text of an instant at a whole second. *)
Lemma datetime_text_spec t : 0 <= t < max_us -> t mod 1000000 = 0 -> exists date tod, datetime_text t = date ++ " "%char :: tod /\ clock t date tod.
Proof.
  intros H W. unfold datetime_text. assert (U : 0 < us_day) by reflexivity.
  assert (D0 : 0 <= t / us_day) by (apply Z.div_pos; lia). assert (D1 : t / us_day < days_before_year 10000) by (apply Z.div_lt_upper_bound; [exact U|unfold max_us in H; lia]).
  destruct (year_of_spec (t / us_day) D0) as [[Y1 Y2] Y3]. set (y := year_of (t / us_day)) in *.
  assert (Y4 : y <= 9999). { destruct (Z_le_gt_dec y 9999) as [L|L]; [exact L|]. pose proof (dby_mono 10000 y ltac:(lia)). lia. }
  rewrite days_before_next in Y2. assert (J : 1 <= t / us_day - days_before_year y + 1 <= year_len y) by lia.
  assert (J' : 1 <= t / us_day - days_before_year y + 1 <= 366) by (revert J; unfold year_len; destruct (is_leap y); lia).
  pose proof (of_doy_spec y _ J') as O. destruct (of_doy y (t / us_day - days_before_year y + 1)) as [[y' m] d]. destruct O as [O _]. destruct (O (proj2 J)) as (-> & M & DD & OR).
  pose proof (Z.mod_pos_bound t us_day U) as B. pose proof (Z.div_mod t us_day ltac:(lia)) as DM.
  set (us := t mod us_day) in *. change us_day with 86400000000 in B.
  assert (F : us mod 1000000 = 0). { unfold us. rewrite <- Znumtheory.Zmod_div_mod; [exact W|lia|exact U|exists 86400; reflexivity]. }
  rewrite F. cbn [Z.eqb]. rewrite app_nil_r.
  pose proof (Z.div_mod us 1000000 ltac:(lia)) as DU. rewrite F, Z.add_0_r in DU. set (s := us / 1000000) in *.
  assert (S1 : 0 <= s < 86400) by lia. clearbody s.
  exists (padn 4 y ++ ["-"%char] ++ padn 2 m ++ ["-"%char] ++ padn 2 d), (padn 2 (s / 3600) ++ [":"%char] ++ padn 2 (s / 60 mod 60) ++ [":"%char] ++ padn 2 (s mod 60)).
  split; [rewrite <- !app_assoc; reflexivity|].
  pose proof (month_len_31 y m) as ML.
  assert (H1 : 0 <= s / 3600 <= 23). { split; [apply Z.div_pos; lia|]. apply Z.lt_succ_r, Z.div_lt_upper_bound; lia. }
  pose proof (Z.mod_pos_bound (s / 60) 60 ltac:(lia)) as H2. pose proof (Z.mod_pos_bound s 60 ltac:(lia)) as H3.
  exists y, m, d, (ordinal y m d), (s / 3600), (s / 60 mod 60), (s mod 60).
  split; [apply calendar_day_spec; repeat split; lia|].
  split; [exists (padn 4 y), (padn 2 m), (padn 2 d); split; [apply padn4; lia|]; split; [apply padn2; lia|]; split; [apply padn2; lia|reflexivity]|].
  split; [exists (padn 2 (s / 3600)), (padn 2 (s / 60 mod 60)), (padn 2 (s mod 60)); split; [apply padn2; lia|]; split; [apply padn2; lia|]; split; [apply padn2; lia|reflexivity]|].
  repeat (split; [lia|]). unfold day_us, sec_us. rewrite OR. replace (days_before_year y + (t / us_day - days_before_year y + 1 - 1)) with (t / us_day) by lia.
  pose proof (Z.div_mod s 60 ltac:(lia)) as E1. pose proof (Z.div_mod (s / 60) 60 ltac:(lia)) as E2. rewrite Z.div_div in E2 by lia. change (60 * 60) with 3600 in E2.
  replace ((s / 3600 * 60 + s / 60 mod 60) * 60 + s mod 60) with s by lia. change us_day with 86400000000 in DM. change us_day with 86400000000. lia.
Qed.
Lemma date4_word s v : date4 s v -> word s.
Proof. intros (c1 & c2 & c3 & c4 & a & b & c & d & -> & A & B & C & D & _). split; [discriminate|]. repeat constructor; eapply digit_word; eassumption. Qed.
Lemma date2_word s v : date2 s v -> word s.
Proof. intros (c1 & c2 & a & b & -> & A & B & _). split; [discriminate|]. repeat constructor; eapply digit_word; eassumption. Qed.
Lemma date_word y m d s : date_text y m d s -> word s.
Proof. intros (sy & sm & sd & A & B & C & ->). apply word_app; [exact (date4_word _ _ A)|]. apply word_cons; [reflexivity|]. apply word_app; [exact (date2_word _ _ B)|]. apply word_cons; [reflexivity|exact (date2_word _ _ C)]. Qed.
Lemma tod_word h m s t : tod_text h m s t -> word t.
Proof. intros (sh & sm & ss & A & B & C & ->). apply word_app; [exact (date2_word _ _ A)|]. apply word_cons; [reflexivity|]. apply word_app; [exact (date2_word _ _ B)|]. apply word_cons; [reflexivity|exact (date2_word _ _ C)]. Qed.
Lemma clock_words t date tod : clock t date tod -> word date /\ word tod.
Proof. intros (y & m & d & n & h & mi & sc & _ & A & B & _). split; [exact (date_word _ _ _ _ A)|exact (tod_word _ _ _ _ B)]. Qed.
(** Days of the calendar, and instants. *)
Lemma calendar_range y m d n : calendar_day y m d n -> 0 <= n < days_before_year 10000.
Proof.
  intros C. apply calendar_day_spec in C. destruct C as (Y & M & D & ->).
  pose proof (dby_bounds y ltac:(lia)) as X1. pose proof (dby_mono (y + 1) 10000 ltac:(lia)) as X2. rewrite days_before_next in X2. unfold ordinal.
  assert (K : 0 <= days_before_month y m /\ days_before_month y m + month_len y m <= year_len y); [|lia].
  assert (MM : m = 1 \/ m = 2 \/ m = 3 \/ m = 4 \/ m = 5 \/ m = 6 \/ m = 7 \/ m = 8 \/ m = 9 \/ m = 10 \/ m = 11 \/ m = 12) by lia.
  destruct MM as [->|[->|[->|[->|[->|[->|[->|[->|[->|[->|[->| ->]]]]]]]]]]]; cbv -[is_leap Z.le]; destruct (is_leap y); lia.
Qed.
Lemma clock_range n s : 0 <= n < days_before_year 10000 -> 0 <= s < 86400 -> 0 <= day_us n + sec_us s < max_us /\ (day_us n + sec_us s) mod 1000000 = 0.
Proof.
  intros N S. unfold day_us, sec_us, max_us, us_day. split; [lia|]. replace (n * 86400000000 + s * 1000000) with ((n * 86400 + s) * 1000000) by lia. apply Z.mod_mul. lia.
Qed.
Lemma instant_range b t : instant (V:=num) b t -> 0 <= t < max_us /\ t mod 1000000 = 0.
Proof. intros (n & C & _ & A1 & A2 & A3 & ->). apply clock_range; [exact (calendar_range _ _ _ _ C)|lia]. Qed.
