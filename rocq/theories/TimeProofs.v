(** Proofs about the time formats. *)
From Coq Require Import String Ascii ZArith QArith Qround List Bool Lia Znumtheory.
From Verif Require Import PyBase TimeModel TimeSpec.
Import ListNotations.
Open Scope string_scope.
Open Scope list_scope.
Open Scope Z_scope.

(** ** Digits *)
Lemma digit_cases n : 0 <= n <= 9 ->
  n = 0 \/ n = 1 \/ n = 2 \/ n = 3 \/ n = 4 \/ n = 5 \/ n = 6 \/ n = 7 \/ n = 8 \/ n = 9.
Proof. lia. Qed.

Lemma code_dig n : 0 <= n <= 9 -> code (dig n) = 48 + n.
Proof.
  intros H. destruct (digit_cases n H) as [->|[->|[->|[->|[->|[->|[->|[->|[->| ->]]]]]]]]]; reflexivity.
Qed.

Lemma code_inj a b : code a = code b -> a = b.
Proof.
  unfold code. intros H. apply N2Z.inj in H.
  rewrite <- (ascii_N_embedding a), <- (ascii_N_embedding b). now rewrite H.
Qed.

Lemma digit_is_dig c n : is_digit_of c n -> c = dig n.
Proof. intros [H1 H2]. apply code_inj. now rewrite code_dig. Qed.

Lemma between_dig a b n : 0 <= n <= 9 -> between a b (dig n) = (a <=? n) && (n <=? b).
Proof.
  intros H. unfold between. rewrite code_dig by exact H.
  f_equal; apply eq_true_iff_eq; rewrite !Z.leb_le; lia.
Qed.

Lemma dig_not_hyphen n : 0 <= n <= 9 -> Ascii.eqb (upchar (dig n)) (upchar "-") = false.
Proof.
  intros H. destruct (digit_cases n H) as [->|[->|[->|[->|[->|[->|[->|[->|[->| ->]]]]]]]]]; reflexivity.
Qed.

(** ** Decimal texts *)
Lemma dec_aux_acc f n acc : dec_aux f n acc = dec_aux f n [] ++ acc.
Proof.
  revert n acc. induction f as [|f IH]; intros n acc; [reflexivity|]. cbn [dec_aux].
  destruct (n <? 10); [reflexivity|]. rewrite (IH _ (_ :: acc)), (IH _ [_]).
  now rewrite <- app_assoc.
Qed.

Lemma dec_aux_fuel f g n acc : 0 <= n -> (Z.to_nat n < f)%nat -> (Z.to_nat n < g)%nat ->
  dec_aux f n acc = dec_aux g n acc.
Proof.
  revert g n acc. induction f as [|f IH]; intros g n acc H0 H1 H2; [lia|].
  destruct g as [|g]; [lia|]. cbn [dec_aux].
  destruct (n <? 10) eqn:E; [reflexivity|]. apply Z.ltb_ge in E.
  assert (n / 10 < n) by (apply Z.div_lt; lia).
  assert (0 <= n / 10) by (apply Z.div_pos; lia).
  apply IH; lia.
Qed.

Lemma dec_unfold n : 0 <= n ->
  dec n = if n <? 10 then [dig n] else dec (n / 10) ++ [dig (n mod 10)].
Proof.
  intros H. unfold dec at 1. cbn [dec_aux]. destruct (n <? 10) eqn:E; [reflexivity|].
  apply Z.ltb_ge in E. rewrite dec_aux_acc. f_equal. unfold dec.
  assert (n / 10 < n) by (apply Z.div_lt; lia).
  assert (0 <= n / 10) by (apply Z.div_pos; lia).
  apply dec_aux_fuel; lia.
Qed.

Lemma dec_1 n : 0 <= n <= 9 -> dec n = [dig n].
Proof. intros H. rewrite dec_unfold by lia. now rewrite (proj2 (Z.ltb_lt n 10)) by lia. Qed.
Lemma dec_2 n : 10 <= n <= 99 -> dec n = [dig (n / 10); dig (n mod 10)].
Proof.
  intros H. rewrite dec_unfold by lia. rewrite (proj2 (Z.ltb_ge n 10)) by lia.
  rewrite dec_1; [reflexivity|]. split; [apply Z.div_pos; lia|].
  apply Z.lt_succ_r. apply Z.div_lt_upper_bound; lia.
Qed.

Lemma dec_head n : 0 <= n -> exists m r, 0 <= m <= 9 /\ dec n = dig m :: r.
Proof.
  intros H. pattern n. apply Zlt_0_ind; [|exact H]. clear n H. intros n IH H.
  rewrite dec_unfold by exact H. destruct (n <? 10) eqn:E.
  - apply Z.ltb_lt in E. exists n, []. split; [lia|reflexivity].
  - apply Z.ltb_ge in E. destruct (IH (n / 10)) as [m [r [A B]]].
    + split; [apply Z.div_pos; lia|apply Z.div_lt; lia].
    + exists m, (r ++ [dig (n mod 10)]). split; [exact A|]. rewrite B. reflexivity.
Qed.

(** Four digits and the rest. *)
Lemma dec_4 n : 1000 <= n <= 9999 -> exists a b c d,
  0 <= a <= 9 /\ 0 <= b <= 9 /\ 0 <= c <= 9 /\ 0 <= d <= 9 /\
  n = ((a * 10 + b) * 10 + c) * 10 + d /\ dec n = [dig a; dig b; dig c; dig d].
Proof.
  intros H. exists (n / 10 / 10 / 10), (n / 10 / 10 mod 10), (n / 10 mod 10), (n mod 10).
  pose proof (Z.div_mod n 10 ltac:(lia)) as D1. pose proof (Z.mod_pos_bound n 10 ltac:(lia)) as M1.
  set (n1 := n / 10) in *.
  pose proof (Z.div_mod n1 10 ltac:(lia)) as D2. pose proof (Z.mod_pos_bound n1 10 ltac:(lia)) as M2.
  set (n2 := n1 / 10) in *.
  pose proof (Z.div_mod n2 10 ltac:(lia)) as D3. pose proof (Z.mod_pos_bound n2 10 ltac:(lia)) as M3.
  set (n3 := n2 / 10) in *.
  repeat (split; [lia|]).
  rewrite dec_unfold by lia. rewrite (proj2 (Z.ltb_ge n 10)) by lia. fold n1.
  rewrite dec_unfold by lia. rewrite (proj2 (Z.ltb_ge n1 10)) by lia. fold n2.
  rewrite dec_unfold by lia. rewrite (proj2 (Z.ltb_ge n2 10)) by lia. fold n3.
  rewrite dec_1 by lia. reflexivity.
Qed.

Lemma dec_ge1000 n : 1000 <= n -> exists a b c d r,
  0 <= a <= 9 /\ 0 <= b <= 9 /\ 0 <= c <= 9 /\ 0 <= d <= 9 /\
  dec n = dig a :: dig b :: dig c :: dig d :: r.
Proof.
  intros H. assert (H0 : 0 <= n) by lia. revert H. pattern n. apply Zlt_0_ind; [|exact H0].
  clear n H0. intros n IH H0 H. destruct (Z_le_gt_dec n 9999) as [L|L].
  - destruct (dec_4 n ltac:(lia)) as [a [b [c [d [A [B [C [D [_ E]]]]]]]]].
    exists a, b, c, d, []. tauto.
  - destruct (IH (n / 10)) as [a [b [c [d [r [A [B [C [D E]]]]]]]]].
    + split; [apply Z.div_pos; lia|apply Z.div_lt; lia].
    + apply Z.div_le_lower_bound; lia.
    + exists a, b, c, d, (r ++ [dig (n mod 10)]). repeat (split; [assumption|]).
      rewrite dec_unfold by lia. rewrite (proj2 (Z.ltb_ge n 10)) by lia. rewrite E. reflexivity.
Qed.

Lemma dec_ge10000 n : 10000 <= n -> exists a b c d e r,
  0 <= a <= 9 /\ 0 <= b <= 9 /\ 0 <= c <= 9 /\ 0 <= d <= 9 /\ 0 <= e <= 9 /\
  dec n = dig a :: dig b :: dig c :: dig d :: dig e :: r.
Proof.
  intros H. destruct (dec_ge1000 (n / 10)) as [a [b [c [d [r [A [B [C [D E]]]]]]]]].
  { apply Z.div_le_lower_bound; lia. }
  pose proof (Z.mod_pos_bound n 10 ltac:(lia)) as M.
  destruct r as [|x r].
  - exists a, b, c, d, (n mod 10), []. repeat (split; [assumption || lia|]).
    rewrite dec_unfold by lia. rewrite (proj2 (Z.ltb_ge n 10)) by lia. rewrite E. reflexivity.
  - (* the fifth character is a digit too *)
    assert (X : exists m, 0 <= m <= 9 /\ x = dig m).
    { assert (F : forall k, 0 <= k -> Forall (fun c => exists m, 0 <= m <= 9 /\ c = dig m) (dec k)).
      { intros k Hk. pattern k. apply Zlt_0_ind; [|exact Hk]. clear k Hk. intros k IH Hk.
        rewrite dec_unfold by exact Hk. destruct (k <? 10) eqn:Ek.
        - constructor; [|constructor]. apply Z.ltb_lt in Ek. exists k. split; [lia|reflexivity].
        - apply Z.ltb_ge in Ek. apply Forall_app. split.
          + apply IH. split; [apply Z.div_pos; lia|apply Z.div_lt; lia].
          + constructor; [|constructor]. exists (k mod 10).
            pose proof (Z.mod_pos_bound k 10 ltac:(lia)). split; [lia|reflexivity]. }
      assert (Hn : 0 <= n / 10) by (apply Z.div_pos; lia).
      specialize (F _ Hn). rewrite E in F. rewrite Forall_forall in F.
      apply F. do 4 right. left. reflexivity. }
    destruct X as [m [Hm ->]]. exists a, b, c, d, m, (r ++ [dig (n mod 10)]).
    repeat (split; [assumption|]). rewrite dec_unfold by lia.
    rewrite (proj2 (Z.ltb_ge n 10)) by lia. rewrite E. reflexivity.
Qed.

(** ** Matching *)
Lemma cand_Y a b c d r : 0 <= a <= 9 -> 0 <= b <= 9 -> 0 <= c <= 9 -> 0 <= d <= 9 ->
  candidates DY (dig a :: dig b :: dig c :: dig d :: r) = [([dig a; dig b; dig c; dig d], r)].
Proof.
  intros A B C D. unfold candidates, alts, dg. cbn [flat_map try_alt app].
  rewrite !between_dig by assumption.
  repeat match goal with |- context [(0 <=? ?x) && (?x <=? 9)] =>
    replace ((0 <=? x) && (x <=? 9)) with true by (symmetry; apply andb_true_iff; rewrite !Z.leb_le; lia) end.
  reflexivity.
Qed.

Lemma matches_Y y t r : 1000 <= y <= 9999 ->
  matches (TDir DY :: t) (dec y ++ r) =
  map (fun m => ((DY, dec y) :: fst m, snd m)) (matches t r) ++ [].
Proof.
  intros H. destruct (dec_4 y H) as [a [b [c [d [A [B [C [D [_ E]]]]]]]]]. rewrite E.
  cbn [app matches]. rewrite cand_Y by assumption. reflexivity.
Qed.

Lemma dval_dec4 a b c d : 0 <= a <= 9 -> 0 <= b <= 9 -> 0 <= c <= 9 -> 0 <= d <= 9 ->
  int_sp [dig a; dig b; dig c; dig d] = ((a * 10 + b) * 10 + c) * 10 + d.
Proof.
  intros A B C D. unfold int_sp. cbn [filter].
  rewrite !code_dig by assumption.
  repeat match goal with |- context [48 + ?x =? 32] =>
    replace (48 + x =? 32) with false by (symmetry; apply Z.eqb_neq; lia) end.
  cbn [negb]. unfold dval. cbn [fold_left]. rewrite !code_dig by assumption. lia.
Qed.

Lemma int_sp_dec4 y : 1000 <= y <= 9999 -> int_sp (dec y) = y.
Proof.
  intros H. destruct (dec_4 y H) as [a [b [c [d [A [B [C [D [F E]]]]]]]]]. rewrite E.
  rewrite dval_dec4 by assumption. lia.
Qed.

Lemma to_nat_case lo hi (P : Z -> Prop) :
  (forall n, (n < Z.to_nat (hi - lo))%nat -> P (lo + Z.of_nat n)) -> forall v, lo <= v < hi -> P v.
Proof.
  intros H v Hv. replace v with (lo + Z.of_nat (Z.to_nat (v - lo))) by lia. apply H. lia.
Qed.

Ltac nat_cases_rec k n H :=
  match k with
  | O => exfalso; exact (Nat.nlt_0_r _ H)
  | S ?k' => destruct n as [|n]; [clear H; vm_compute; reflexivity|];
             apply Nat.succ_lt_mono in H; nat_cases_rec k' n H
  end.
Ltac nat_cases n H :=
  match type of H with
  | (n < ?k)%nat =>
      let k' := eval vm_compute in k in
      change (n < k')%nat in H; nat_cases_rec k' n H
  end.

(** A number of the right size, then a hyphen: exactly one way to match. *)
Definition hyph (c : ascii) (p : str * str) : bool :=
  match snd p with a :: _ => Ascii.eqb (upchar a) (upchar c) | [] => false end.

Lemma matches_lit d c t s :
  matches (TDir d :: TLit c :: t) s =
  flat_map (fun p => map (fun m => ((d, fst p) :: fst m, snd m)) (matches (TLit c :: t) (snd p)))
    (filter (hyph c) (candidates d s)).
Proof.
  change (matches (TDir d :: TLit c :: t) s) with
    (flat_map (fun p => map (fun m => ((d, fst p) :: fst m, snd m)) (matches (TLit c :: t) (snd p)))
       (candidates d s)).
  induction (candidates d s) as [|p l IH]; [reflexivity|].
  cbn [flat_map filter]. rewrite IH. unfold hyph at 2. destruct p as [x [|a y]]; cbn [fst snd].
  - reflexivity.
  - destruct (Ascii.eqb (upchar a) (upchar c)) eqn:E; [reflexivity|].
    cbn [matches]. rewrite E. reflexivity.
Qed.

Lemma matches_one d c t x r :
  (forall q, filter (hyph c) (candidates d (x ++ c :: q)) = [(x, c :: q)]) ->
  matches (TDir d :: TLit c :: t) (x ++ c :: r) =
  map (fun m => ((d, x) :: fst m, snd m)) (matches t r) ++ [].
Proof.
  intros H. rewrite matches_lit, H. cbn [flat_map fst snd]. cbn [matches].
  rewrite Ascii.eqb_refl. reflexivity.
Qed.

Lemma matches_j j t r : 1 <= j <= 366 ->
  matches (TDir Dj :: TLit "-" :: t) (dec j ++ "-"%char :: r) =
  map (fun m => ((Dj, dec j) :: fst m, snd m)) (matches t r) ++ [].
Proof.
  intros H. apply matches_one. pattern j. apply (to_nat_case 1 367); [|lia]. clear j H.
  intros n H q. nat_cases n H.
Qed.
Lemma matches_H h t r : 0 <= h <= 23 ->
  matches (TDir DH :: TLit "-" :: t) (dec h ++ "-"%char :: r) =
  map (fun m => ((DH, dec h) :: fst m, snd m)) (matches t r) ++ [].
Proof.
  intros H. apply matches_one. pattern h. apply (to_nat_case 0 24); [|lia]. clear h H.
  intros n H q. nat_cases n H.
Qed.
Lemma matches_M h t r : 0 <= h <= 59 ->
  matches (TDir DM :: TLit "-" :: t) (dec h ++ "-"%char :: r) =
  map (fun m => ((DM, dec h) :: fst m, snd m)) (matches t r) ++ [].
Proof.
  intros H. apply matches_one. pattern h. apply (to_nat_case 0 60); [|lia]. clear h H.
  intros n H q. nat_cases n H.
Qed.
Lemma matches_S_end s : 0 <= s <= 60 ->
  hd_error (matches [TDir DS] (dec s)) = Some ([(DS, dec s)], []).
Proof.
  intros H. pattern s. apply (to_nat_case 0 61); [|lia]. clear s H.
  intros n H. nat_cases n H.
Qed.

Lemma hd_map {A B} (f : A -> B) l : hd_error (map f l ++ []) = option_map f (hd_error l).
Proof. destruct l; reflexivity. Qed.

Lemma int_sp_dec_small v : 0 <= v < 1000 -> int_sp (dec v) = v.
Proof.
  intros H. pattern v. apply (to_nat_case 0 1000); [|exact H]. clear v H.
  intros n H. assert (E : forallb (fun k => int_sp (dec (0 + Z.of_nat k)) =? (0 + Z.of_nat k)) (seq 0 1000) = true)
    by (vm_compute; reflexivity).
  rewrite forallb_forall in E. apply Z.eqb_eq, E. apply in_seq. change (Z.to_nat (1000 - 0)) with 1000%nat in H. lia.
Qed.

(** No match: the fourth or a later digit follows. *)
Lemma try_alt_spec cl s a r : try_alt cl s = Some (a, r) -> s = a ++ r /\ length a = length cl.
Proof.
  revert s a r. induction cl as [|p cl IH]; intros s a r H; cbn [try_alt] in H.
  - injection H as <- <-. split; reflexivity.
  - destruct s as [|c s]; [discriminate|]. destruct (p c); [|discriminate].
    destruct (try_alt cl s) as [[a' r']|] eqn:E; [|discriminate]. injection H as <- <-.
    destruct (IH _ _ _ E) as [-> L]. split; [reflexivity|cbn [length]; now f_equal].
Qed.

Lemma flat_map_nil {A B} (f : A -> list B) l : (forall x, In x l -> f x = []) -> flat_map f l = [].
Proof.
  induction l as [|x l IH]; intros H; [reflexivity|]. cbn [flat_map].
  rewrite (H x) by (now left). apply IH. intros y Hy. apply H. now right.
Qed.

Lemma no_match_long d t a b c e r :
  0 <= a <= 9 -> 0 <= b <= 9 -> 0 <= c <= 9 -> 0 <= e <= 9 ->
  Forall (fun cl => (1 <= length cl <= 3)%nat) (alts d) ->
  matches (TDir d :: TLit "-" :: t) (dig a :: dig b :: dig c :: dig e :: r) = [].
Proof.
  intros A B C E L. change (flat_map (fun p => map (fun m => ((d, fst p) :: fst m, snd m)) (matches (TLit "-" :: t) (snd p)))
        (candidates d (dig a :: dig b :: dig c :: dig e :: r)) = []).
  apply flat_map_nil. intros [x y] H. unfold candidates in H.
  apply in_flat_map in H. destruct H as [cl [Hcl H]].
  rewrite Forall_forall in L. specialize (L _ Hcl).
  destruct (try_alt cl _) as [[u v]|] eqn:T; [|destruct H].
  destruct H as [H|[]]. injection H as -> ->. apply try_alt_spec in T. destruct T as [T1 T2].
  assert (Y : exists m q, 0 <= m <= 9 /\ y = dig m :: q).
  { destruct x as [|x1 x]; [cbn in T2; lia|]. injection T1 as _ T1.
    destruct x as [|x2 x]; [exists b; eexists; split; [exact B|symmetry; exact T1]|].
    injection T1 as _ T1.
    destruct x as [|x3 x]; [exists c; eexists; split; [exact C|symmetry; exact T1]|].
    injection T1 as _ T1.
    destruct x as [|x4 x]; [exists e; eexists; split; [exact E|symmetry; exact T1]|].
    cbn in T2. lia. }
  destruct Y as [m [q [Hm ->]]]. cbn [snd matches]. rewrite dig_not_hyphen by exact Hm. reflexivity.
Qed.

Lemma no_match_j j t r : 367 <= j ->
  matches (TDir Dj :: TLit "-" :: t) (dec j ++ "-"%char :: r) = [].
Proof.
  intros H. destruct (Z_lt_ge_dec j 1000) as [L|L].
  - rewrite matches_lit. assert (E : forall q, filter (hyph "-") (candidates Dj (dec j ++ "-"%char :: q)) = []).
    { pattern j. apply (to_nat_case 367 1000); [|lia]. clear j H L. intros n H q. nat_cases n H. }
    now rewrite E.
  - destruct (dec_ge1000 j ltac:(lia)) as [a [b [c [d [q [A [B [C [D E]]]]]]]]]. rewrite E.
    cbn [app]. apply no_match_long; try assumption. cbn [alts].
    repeat (constructor; [cbn; lia|]). constructor.
Qed.

(** ** {:.0f} *)
Lemma Qfloor_Z n : Qfloor (inject_Z n) = n.
Proof. apply Qfloor_Z. Qed.

Lemma round_Z n q : (q == inject_Z n)%Q -> round_half_even q = n.
Proof.
  intros H. unfold round_half_even.
  assert (F : Qfloor q = n) by (rewrite H; apply Qfloor_Z). rewrite F.
  assert (Qle_bool (1 # 2) (q - inject_Z n) = false).
  { apply not_true_iff_false. intros E. apply Qle_bool_iff in E. rewrite H in E.
    unfold Qminus in E. rewrite Qplus_opp_r in E. unfold Qle in E. simpl in E. lia. }
  now rewrite H0.
Qed.

Lemma fmt_0f_nonneg n q : (q == inject_Z n)%Q -> 0 <= n -> fmt_0f q = dec n.
Proof.
  intros H Hn. unfold fmt_0f. rewrite (round_Z n q H).
  assert (E : Qle_bool 0 q = true) by (apply Qle_bool_iff; rewrite H; unfold Qle; simpl; lia).
  now rewrite E.
Qed.
Lemma fmt_0f_neg n q : (q == inject_Z n)%Q -> n < 0 -> fmt_0f q = "-"%char :: dec (- n).
Proof.
  intros H Hn. unfold fmt_0f. rewrite (round_Z n q H).
  assert (E : Qle_bool 0 q = false).
  { apply not_true_iff_false. intros E. apply Qle_bool_iff in E. rewrite H in E.
    unfold Qle in E. simpl in E. lia. }
  now rewrite E.
Qed.

(** ** The calendar *)
Lemma is_leap_spec y : is_leap y = true <-> leap_year y.
Proof.
  unfold is_leap, leap_year. rewrite andb_true_iff, orb_true_iff, negb_true_iff, !Z.eqb_eq, Z.eqb_neq.
  assert (D : forall n, 0 < n -> (y mod n = 0 <-> (n | y))).
  { intros n Hn. split; [apply Zmod_divide; lia|intros Hd; apply Zdivide_mod; exact Hd]. }
  rewrite (D 4), (D 400) by lia. rewrite <- (D 100) by lia. reflexivity.
Qed.

Lemma is_leap_false y : is_leap y = false <-> ~ leap_year y.
Proof. rewrite <- is_leap_spec. now rewrite not_true_iff_false. Qed.

Definition year_len (y : Z) : Z := if is_leap y then 366 else 365.

Lemma div_step y n : 0 < n -> y / n = (y - 1) / n + (if y mod n =? 0 then 1 else 0).
Proof.
  intros Hn. pose proof (Z.div_mod y n ltac:(lia)) as D. pose proof (Z.mod_pos_bound y n Hn) as M.
  destruct (y mod n =? 0) eqn:E.
  - apply Z.eqb_eq in E. rewrite <- (Z.div_unique (y - 1) n (y / n - 1) (n - 1)); lia.
  - apply Z.eqb_neq in E. rewrite <- (Z.div_unique (y - 1) n (y / n) (y mod n - 1)); lia.
Qed.

Lemma mod_mult0 y a b : 0 < a -> 0 < b -> y mod (a * b) = 0 -> y mod a = 0.
Proof.
  intros Ha Hb H. apply Zmod_divide in H; [|lia]. apply Zdivide_mod.
  eapply Z.divide_trans; [|exact H]. apply Z.divide_factor_l.
Qed.

Lemma days_before_next y : days_before_year (y + 1) = days_before_year y + year_len y.
Proof.
  unfold days_before_year, year_len, is_leap. replace (y + 1 - 1) with y by lia.
  rewrite (div_step y 4), (div_step y 100), (div_step y 400) by lia.
  pose proof (mod_mult0 y 4 25 ltac:(lia) ltac:(lia)) as A. change (4 * 25) with 100 in A.
  pose proof (mod_mult0 y 100 4 ltac:(lia) ltac:(lia)) as B. change (100 * 4) with 400 in B.
  destruct (y mod 4 =? 0) eqn:E4; destruct (y mod 100 =? 0) eqn:E100;
    destruct (y mod 400 =? 0) eqn:E400; cbn [andb orb negb];
    rewrite ?Z.eqb_eq, ?Z.eqb_neq in *; try lia;
    exfalso; tauto.
Qed.

Lemma year_start_spec y d : year_start y d <-> 1 <= y /\ d = days_before_year y.
Proof.
  split.
  - induction 1 as [|y d H [IH1 IH2] L|y d H [IH1 IH2] L].
    + split; [lia|reflexivity].
    + split; [lia|]. rewrite days_before_next. unfold year_len.
      rewrite (proj2 (is_leap_spec y) L). lia.
    + split; [lia|]. rewrite days_before_next. unfold year_len.
      rewrite (proj2 (is_leap_false y) L). lia.
  - intros [H ->]. replace y with (1 + Z.of_nat (Z.to_nat (y - 1))) by lia.
    set (n := Z.to_nat (y - 1)). clearbody n. clear y H.
    induction n as [|n IH]; [exact ys_one|].
    replace (1 + Z.of_nat (S n)) with (1 + Z.of_nat n + 1) by lia.
    rewrite days_before_next. unfold year_len. destruct (is_leap (1 + Z.of_nat n)) eqn:E.
    + apply ys_leap; [exact IH|]. now apply is_leap_spec.
    + apply ys_common; [exact IH|]. now apply is_leap_false.
Qed.

Lemma month_days_spec y m n : 1 <= m <= 12 -> (month_days y m n <-> n = month_len y m).
Proof.
  intros H. unfold month_days, month_len.
  assert (M : m = 1 \/ m = 2 \/ m = 3 \/ m = 4 \/ m = 5 \/ m = 6 \/ m = 7 \/ m = 8 \/ m = 9 \/
              m = 10 \/ m = 11 \/ m = 12) by lia.
  destruct (is_leap y) eqn:L; [apply is_leap_spec in L|apply is_leap_false in L];
    destruct M as [->|[->|[->|[->|[->|[->|[->|[->|[->|[->|[->| ->]]]]]]]]]]]; cbn [Z.eqb Pos.eqb orb In];
    split; intros K; intuition lia.
Qed.

Lemma month_start_spec y m d : 1 <= m <= 12 -> (month_start y m d <-> d = days_before_month y m).
Proof.
  intros H. split.
  - intros S. induction S as [|m d n S IH K].
    + reflexivity.
    + assert (1 <= m).
      { clear - S. induction S; lia. }
      rewrite IH by lia. apply month_days_spec in K; [|lia]. subst n.
      assert (M : m = 1 \/ m = 2 \/ m = 3 \/ m = 4 \/ m = 5 \/ m = 6 \/ m = 7 \/ m = 8 \/ m = 9 \/
              m = 10 \/ m = 11) by lia.
      destruct M as [->|[->|[->|[->|[->|[->|[->|[->|[->|[->| ->]]]]]]]]]]; cbv -[is_leap]; destruct (is_leap y); reflexivity.
  - intros ->. assert (K : forall k, 1 <= k <= 12 -> month_days y k (month_len y k))
      by (intros k Hk; now apply month_days_spec).
    assert (Hn : (Z.to_nat (m - 1) < 12)%nat) by lia.
    replace m with (Z.of_nat (Z.to_nat (m - 1)) + 1) by lia.
    revert Hn. generalize (Z.to_nat (m - 1)) as n. clear m H.
    induction n as [|n IH]; intros Hn; [exact (ms_one y)|].
    specialize (IH ltac:(lia)).
    replace (Z.of_nat (S n) + 1) with (Z.of_nat n + 1 + 1) by lia.
    replace (days_before_month y (Z.of_nat n + 1 + 1))
      with (days_before_month y (Z.of_nat n + 1) + month_len y (Z.of_nat n + 1)).
    + apply ms_next; [exact IH|]. apply K. lia.
    + do 11 (destruct n as [|n]; [cbv -[is_leap]; destruct (is_leap y); reflexivity|]). lia.
Qed.

Lemma calendar_day_spec y m d n :
  calendar_day y m d n <->
  1 <= y <= 9999 /\ 1 <= m <= 12 /\ 1 <= d <= month_len y m /\ n = ordinal y m d.
Proof.
  unfold calendar_day, ordinal. split.
  - intros [Hy [Hm [Hd [[k [K1 K2]] [a [b [A [B E]]]]]]]].
    apply month_days_spec in K1; [|exact Hm]. apply year_start_spec in A.
    apply month_start_spec in B; [|exact Hm]. destruct A as [_ ->]. subst. auto.
  - intros [Hy [Hm [Hd E]]]. split; [exact Hy|]. split; [exact Hm|]. split; [lia|]. split.
    + exists (month_len y m). split; [now apply month_days_spec|lia].
    + exists (days_before_year y), (days_before_month y m).
      split; [apply year_start_spec; lia|]. split; [now apply month_start_spec|]. exact E.
Qed.

Lemma of_doy_spec y j : 1 <= j <= 366 ->
  let '(y', m, d) := of_doy y j in
  (j <= year_len y -> y' = y /\ 1 <= m <= 12 /\ 1 <= d <= month_len y m /\
     ordinal y m d = days_before_year y + (j - 1)) /\
  (year_len y < j -> y' = y + 1 /\ m = 1 /\ d = 1).
Proof.
  intros H. unfold ordinal, of_doy.
  assert (Q : forall f m k, (f + Z.to_nat m = 13)%nat -> 1 <= m <= 12 -> 1 <= k ->
    days_before_month y m + k <= year_len y + 1 ->
    let '(y', m', d') := month_day f y m k in
    (days_before_month y m + k <= year_len y -> y' = y /\ 1 <= m' <= 12 /\ 1 <= d' <= month_len y m' /\
      days_before_month y m' + d' = days_before_month y m + k) /\
    (year_len y < days_before_month y m + k -> y' = y + 1 /\ m' = 1 /\ d' = 1)).
  { induction f as [|f IH]; intros m k Hf Hm Hk Hb.
    - lia.
    - cbn [month_day]. destruct (k <=? month_len y m) eqn:E.
      + apply Z.leb_le in E. split; [intros L; repeat split; lia|]. intros L. exfalso.
        assert (days_before_month y m + month_len y m <= year_len y).
        { assert (M : m = 1 \/ m = 2 \/ m = 3 \/ m = 4 \/ m = 5 \/ m = 6 \/ m = 7 \/ m = 8 \/ m = 9 \/
              m = 10 \/ m = 11 \/ m = 12) by lia.
          destruct M as [->|[->|[->|[->|[->|[->|[->|[->|[->|[->|[->| ->]]]]]]]]]]];
            cbv -[is_leap Z.le]; destruct (is_leap y); lia. }
        lia.
      + apply Z.leb_gt in E. destruct (Z.eq_dec m 12) as [->|Nm].
        * assert (f = O) by lia. subst f. cbn [month_day].
          assert (X : days_before_month y 12 + month_len y 12 = year_len y)
            by (cbv -[is_leap]; destruct (is_leap y); reflexivity).
          split; [intros L; lia|]. intros L. lia.
        * assert (X : days_before_month y (m + 1) = days_before_month y m + month_len y m).
          { assert (M : m = 1 \/ m = 2 \/ m = 3 \/ m = 4 \/ m = 5 \/ m = 6 \/ m = 7 \/ m = 8 \/ m = 9 \/
              m = 10 \/ m = 11) by lia.
            destruct M as [->|[->|[->|[->|[->|[->|[->|[->|[->|[->| ->]]]]]]]]]];
              cbv -[is_leap]; destruct (is_leap y); reflexivity. }
          specialize (IH (m + 1) (k - month_len y m)).
          replace (days_before_month y (m + 1) + (k - month_len y m))
            with (days_before_month y m + k) in IH by lia.
          apply IH; lia. }
  specialize (Q 12%nat 1 j eq_refl ltac:(lia) ltac:(lia)).
  assert (B : days_before_month y 1 = 0) by reflexivity. rewrite B in Q.
  assert (J : 0 + j <= year_len y + 1) by (unfold year_len; destruct (is_leap y); lia).
  specialize (Q J). destruct (month_day 12 y 1 j) as [[y' m] d]. destruct Q as [Q1 Q2].
  split.
  - intros L. destruct (Q1 ltac:(lia)) as [-> [A2 [A3 A4]]]. repeat split; lia.
  - intros L. apply Q2. lia.
Qed.

Lemma mk_datetime_ok y m d H M Sc f :
  1 <= y <= 9999 -> 1 <= m <= 12 -> 1 <= d <= month_len y m ->
  0 <= H <= 23 -> 0 <= M <= 59 -> 0 <= Sc <= 59 -> 0 <= f <= 999999 ->
  mk_datetime y m d H M Sc f =
    Ok (ordinal y m d * us_day + ((H * 60 + M) * 60 + Sc) * 1000000 + f).
Proof.
  intros. unfold mk_datetime.
  replace (_ && _) with true; [reflexivity|].
  symmetry. repeat (apply andb_true_iff; split); apply Z.leb_le; lia.
Qed.

(** strptime's date for a year and day of year. *)
Lemma doy_time y j H M Sc : 1 <= y <= 9999 -> 1 <= j <= 366 ->
  0 <= H <= 23 -> 0 <= M <= 59 -> 0 <= Sc <= 59 ->
  let '(y', m, d) := of_doy y j in
  mk_datetime y' m d H M Sc 0 =
    if (y =? 9999) && (j =? 366) then Err ValueError
    else Ok ((days_before_year y + (j - 1)) * us_day + ((H * 60 + M) * 60 + Sc) * 1000000).
Proof.
  intros Hy Hj HH HM HS. pose proof (of_doy_spec y j Hj) as P.
  destruct (of_doy y j) as [[y' m] d]. destruct P as [P1 P2].
  destruct (Z_le_gt_dec j (year_len y)) as [L|L].
  - destruct (P1 L) as [-> [A [B C]]]. rewrite mk_datetime_ok by lia. rewrite C.
    assert (E : (y =? 9999) && (j =? 366) = false).
    { apply not_true_iff_false. rewrite andb_true_iff, !Z.eqb_eq. intros [-> ->].
      revert L. cbv. congruence. }
    rewrite E. f_equal. lia.
  - destruct (P2 ltac:(lia)) as [-> [-> ->]].
    assert (J : j = 366 /\ year_len y = 365).
    { revert L. unfold year_len. destruct (is_leap y); lia. }
    destruct J as [-> J]. rewrite Z.eqb_refl, andb_true_r. destruct (y =? 9999) eqn:E.
    + apply Z.eqb_eq in E. subst y. unfold mk_datetime. reflexivity.
    + apply Z.eqb_neq in E. rewrite mk_datetime_ok; try lia; [|cbv; split; discriminate].
      f_equal. unfold ordinal. rewrite days_before_next, J.
      change (days_before_month (y + 1) 1) with 0. lia.
Qed.
