(** Tables in text files: formats, column types and rows. *)
From Coq Require Import String Ascii ZArith QArith List Bool Lia.
From Verif Require Import PyBase PyString TimeModel TimeSpec FilesModel FilesProofs TextSpec TextProofs SmagModel LoadProofs VortProofs GeneralModel GeneralSpec.
Import ListNotations.
Open Scope string_scope.
Open Scope list_scope.
Open Scope Z_scope.

(** ** Formats *)
Definition nospace (s : str) : Prop := Forall (fun c => isspace c = false) s.
Lemma split_word p : nospace p -> split " " p = [p].
Proof.
  induction 1 as [|c p N _ IH]; [reflexivity|]. cbn [split]. rewrite IH. destruct (Ascii.eqb_spec c " ") as [->|_]; [discriminate N|reflexivity].
Qed.
Lemma split_space p r : nospace p -> split " " (p ++ " "%char :: r) = p :: split " " r.
Proof.
  induction 1 as [|c p N _ IH]; [reflexivity|]. cbn [app split]. rewrite IH. destruct (Ascii.eqb_spec c " ") as [->|_]; [discriminate N|reflexivity].
Qed.
Lemma split_parts ps : ps <> [] -> Forall word ps -> split " " (with_spaces ps) = ps.
Proof.
  intros N F. induction F as [|p ps W F IH]; [contradiction|]. destruct ps as [|p' ps]; [apply split_word, W|].
  change (with_spaces (p :: p' :: ps)) with (p ++ " "%char :: with_spaces (p' :: ps)). rewrite split_space by apply W. rewrite IH by discriminate. reflexivity.
Qed.
Lemma prefix_nospace n a b : nospace n -> prefix n (a ++ " "%char :: b) = prefix n a.
Proof.
  intros N. revert a. induction N as [|c n C N IH]; intros a; [destruct a; reflexivity|]. destruct a as [|x a]; cbn [app prefix].
  - destruct (Ascii.eqb_spec c " ") as [->|_]; [discriminate C|reflexivity].
  - rewrite IH. reflexivity.
Qed.
Lemma find_skip n a b : n <> [] -> nospace n -> contains n a = false -> find n (a ++ " "%char :: b) = option_map (fun i => (S (length a) + i)%nat) (find n b).
Proof.
  intros NE N. induction a as [|x a IH]; intros C.
  - cbn [app]. cbn [find]. pose proof (prefix_nospace n [] b N) as P. cbn [app] in P. rewrite P. destruct n; [contradiction|]. cbn [prefix length]. destruct (find (a :: n) b); reflexivity.
  - cbn [app]. cbn [find]. pose proof (prefix_nospace n (x :: a) b N) as P. cbn [app] in P. rewrite P. unfold contains in C. cbn [find] in C.
    destruct (prefix n (x :: a)); [discriminate C|]. rewrite IH.
    + destruct (find n b); reflexivity.
    + unfold contains. destruct (find n a); [discriminate C|reflexivity].
Qed.
Lemma upper_app a b : upper (a ++ b) = upper a ++ upper b. Proof. apply map_app. Qed.
Lemma upper_len a : length (upper a) = length a. Proof. apply map_length. Qed.
Lemma not_has name p : ~ has name p -> contains (s2l name) (upper p) = false.
Proof. intros N. apply not_true_is_false. intros C. apply N. apply contains_spec in C. exact C. Qed.
Lemma prefix_refl a : prefix a a = true.
Proof. induction a as [|c a IH]; [reflexivity|]. cbn [prefix]. rewrite Ascii.eqb_refl, IH. reflexivity. Qed.
Lemma find_part name ps : s2l name <> [] -> nospace (s2l name) -> Forall (fun p => ignoring_case name p \/ ~ has name p) ps ->
  (Forall (fun p => ~ ignoring_case name p) ps /\ find (s2l name) (upper (with_spaces ps)) = None) \/
  (exists n p i, nth_error ps n = Some p /\ ignoring_case name p /\ (forall m p', (m < n)%nat -> nth_error ps m = Some p' -> ~ ignoring_case name p') /\
     find (s2l name) (upper (with_spaces ps)) = Some i /\ firstn (length (s2l name)) (skipn i (with_spaces ps)) = p).
Proof.
  intros NE N F. induction F as [|p ps H F IH]; [left; split; [constructor|]; destruct (s2l name); [contradiction|reflexivity]|].
  destruct H as [H|H].
  - right. exists 0%nat, p, 0%nat. split; [reflexivity|]. split; [exact H|]. split; [intros m p' L; lia|].
    assert (LP : length (s2l name) = length p) by (unfold ignoring_case in H; rewrite <- H; apply upper_len).
    destruct ps as [|p' ps].
    + cbn [with_spaces]. split; [|cbn [skipn]; rewrite LP; apply firstn_all]. unfold ignoring_case in H. rewrite H. destruct (s2l name); [contradiction|]. cbn [find]. rewrite prefix_refl. reflexivity.
    + change (with_spaces (p :: p' :: ps)) with (p ++ " "%char :: with_spaces (p' :: ps)). split; [|cbn [skipn]; rewrite LP, firstn_app, Nat.sub_diag, firstn_all; apply app_nil_r].
      rewrite upper_app. unfold ignoring_case in H. rewrite H. assert (Q : prefix (s2l name) (s2l name ++ upper (" "%char :: with_spaces (p' :: ps))) = true) by (apply prefix_spec; eexists; reflexivity).
      revert Q. generalize (s2l name ++ upper (" "%char :: with_spaces (p' :: ps))). intros [|c w] Q; cbn [find]; rewrite Q; reflexivity.
  - pose proof (not_has _ _ H) as C. assert (NI : ~ ignoring_case name p). { intros E. apply H. exists [], []. rewrite app_nil_r. exact E. }
    destruct ps as [|p' ps].
    + left. split; [constructor; [exact NI|constructor]|]. cbn [with_spaces]. unfold contains in C. destruct (find (s2l name) (upper p)); [discriminate C|reflexivity].
    + change (with_spaces (p :: p' :: ps)) with (p ++ " "%char :: with_spaces (p' :: ps)). rewrite upper_app. change (upper (" "%char :: with_spaces (p' :: ps))) with (" "%char :: upper (with_spaces (p' :: ps))).
      rewrite (find_skip _ _ _ NE N C). destruct IH as [[F1 ->]|(n & q & i & E1 & E2 & E3 & -> & E5)].
      * left. split; [constructor; assumption|reflexivity].
      * right. exists (S n), q, (S (length p) + i)%nat. split; [exact E1|]. split; [exact E2|]. split; [|cbn [option_map]; rewrite upper_len; split; [reflexivity|]].
        -- intros [|m] q' L Q; [cbn in Q; injection Q as <-; exact NI|]. apply (E3 m); [lia|exact Q].
        -- rewrite skipn_app. rewrite skipn_all2 by lia. cbn [app]. replace (S (length p) + i - length p)%nat with (S i) by lia. cbn [skipn]. exact E5.
Qed.
Lemma index_first k l n : nth_error l n = Some k -> (forall m x, (m < n)%nat -> nth_error l m = Some x -> x <> k) -> index k l = Ok n.
Proof.
  revert n. induction l as [|a l IH]; intros [|n] E F; try discriminate E; cbn [index].
  - injection E as ->. rewrite str_eqb_refl. reflexivity.
  - rewrite str_eqb_neq; [|intros ->; apply (F 0%nat a); [lia|reflexivity|reflexivity]]. rewrite (IH n E); [reflexivity|]. intros m x L X. apply (F (S m)); [lia|exact X].
Qed.

Lemma no_has_const name (u : str) : contains (s2l name) u = false -> forall p, upper p = u -> ~ has name p.
Proof. intros C p E H. unfold has in H. rewrite E in H. apply contains_spec in H. congruence. Qed.
Lemma part_year p : good_part p -> ignoring_case "YEAR" p \/ ~ has "YEAR" p.
Proof.
  intros (_ & [(_ & H & _)|[[H|H]|[H|H]]]); [right; exact H|left; exact H|right; refine (no_has_const _ _ _ p H); reflexivity ..].
Qed.
Lemma part_soy p : good_part p -> ignoring_case "SOY" p \/ ~ has "SOY" p.
Proof.
  intros (_ & [(_ & _ & H & _)|[[H|H]|[H|H]]]); [right; exact H|right; refine (no_has_const _ _ _ p H); reflexivity|left; exact H|right; refine (no_has_const _ _ _ p H); reflexivity ..].
Qed.
Lemma part_sod p : good_part p -> contains "SOD" (upper p) = true <-> ignoring_case "SOD" p.
Proof.
  intros (_ & G). split; [|intros ->; reflexivity]. intros C. destruct G as [(_ & _ & _ & H)|[[H|H]|[H|H]]]; [|rewrite H in C; discriminate C ..|exact H|rewrite H in C; discriminate C].
  apply not_has in H. rewrite H in C. discriminate C.
Qed.
Lemma int_parts_spec ps : ps <> [] -> Forall good_part ps -> exists added, int_parts (with_spaces ps) = Ok (map Z.of_nat added) /\
  (forall j, In j added -> exists p, nth_error ps j = Some p /\ whole_part p) /\
  ((forall i i' p p', nth_error ps i = Some p -> nth_error ps i' = Some p' -> whole_part p -> upper p = upper p' -> i = i') -> forall j p, nth_error ps j = Some p -> whole_part p -> In j added).
Proof.
  intros NE G. unfold int_parts. rewrite split_parts by (first [exact NE|eapply Forall_impl; [|exact G]; intros p H; apply H]). cbv zeta.
  assert (ONE : forall name, s2l name <> [] -> nospace (s2l name) -> Forall (fun p => ignoring_case name p \/ ~ has name p) ps ->
    exists l, match find (s2l name) (upper (with_spaces ps)) with Some i => n <- index (firstn (length (s2l name)) (skipn i (with_spaces ps))) ps ;; Ok [Z.of_nat n] | None => Ok [] end = Ok (map Z.of_nat l) /\
      (forall j, In j l -> exists p, nth_error ps j = Some p /\ ignoring_case name p) /\
      ((forall i i' p p', nth_error ps i = Some p -> nth_error ps i' = Some p' -> ignoring_case name p -> upper p = upper p' -> i = i') -> forall j p, nth_error ps j = Some p -> ignoring_case name p -> In j l)).
  { intros name N1 N2 F. destruct (find_part name ps N1 N2 F) as [[H ->]|(n & p & i & E1 & E2 & E3 & -> & E5)].
    - exists []. split; [reflexivity|]. split; [intros j []|]. intros _ j p E I. exfalso. rewrite Forall_forall in H. apply (H p); [eapply nth_error_In; exact E|exact I].
    - rewrite E5. rewrite (index_first p ps n E1).
      + exists [n]. split; [reflexivity|]. split; [intros j [<-|[]]; exists p; split; assumption|]. intros O j p' E I. left. apply (O n j p p' E1 E E2). unfold ignoring_case in *. congruence.
      + intros m x L X ->. exact (E3 m p L X E2). }
  destruct (ONE "YEAR") as (l1 & -> & A1 & B1); [discriminate|repeat constructor|eapply Forall_impl; [|exact G]; intros p H; apply part_year, H|].
  destruct (ONE "SOY") as (l2 & -> & A2 & B2); [discriminate|repeat constructor|eapply Forall_impl; [|exact G]; intros p H; apply part_soy, H|].
  cbn [bind]. exists (l1 ++ l2). rewrite map_app. split; [reflexivity|]. split.
  - intros j I. apply in_app_iff in I. destruct I as [I|I]; [destruct (A1 j I) as (p & E & H)|destruct (A2 j I) as (p & E & H)]; exists p; (split; [exact E|]); [left|right]; exact H.
  - intros O j p E [H|H]; apply in_app_iff; [left; apply (B1 (fun i i' a b Ea Eb Wa => O i i' a b Ea Eb (or_introl Wa)) j p E H)|right; apply (B2 (fun i i' a b Ea Eb Wa => O i i' a b Ea Eb (or_intror Wa)) j p E H)].
Qed.

(** ** Column types *)
Lemma set_nth_spec {A} (a : A) l : forall i j, (i < length l)%nat -> nth_error (set_nth i a l) j = if (j =? i)%nat then Some a else nth_error l j.
Proof.
  induction l as [|b l IH]; intros i j L; [cbn [length] in L; lia|]. destruct i as [|i], j as [|j]; cbn [set_nth nth_error Nat.eqb]; try reflexivity. apply IH. cbn [length] in L. lia.
Qed.
Lemma set_nth_length {A} (a : A) l : forall i, length (set_nth i a l) = length l.
Proof. induction l as [|b l IH]; intros [|i]; cbn [set_nth length]; try reflexivity. rewrite IH. reflexivity. Qed.
Lemma setE_nat {A} (l : list A) i a : (i < length l)%nat -> setE l (Z.of_nat i) a = Ok (set_nth i a l).
Proof. intros L. unfold setE, zlen. rewrite (proj2 (Z.leb_le _ _)), (proj2 (Z.ltb_lt _ _)) by lia. cbn [andb]. rewrite Nat2Z.id. reflexivity. Qed.
Lemma getE_nat {A} (l : list A) i a : nth_error l i = Some a -> getE l (Z.of_nat i) = Ok a.
Proof.
  intros E. assert (L : (i < length l)%nat) by (apply nth_error_Some; congruence). unfold getE, py_get. rewrite (proj2 (Z.leb_le _ _)), (proj2 (Z.ltb_lt _ _)) by lia. cbn [andb]. rewrite Nat2Z.id, E. reflexivity.
Qed.
Lemma set_types_spec c cols : forall l, Forall (fun j => (j < length l)%nat) cols -> exists l', set_types (map Z.of_nat cols) c l = Ok l' /\ length l' = length l /\
  forall j, (In j cols -> nth_error l' j = Some c) /\ (~ In j cols -> nth_error l' j = nth_error l j).
Proof.
  induction cols as [|i cols IH]; intros l F; cbn [map set_types].
  - exists l. split; [reflexivity|]. split; [reflexivity|]. intros j. split; [intros []|reflexivity].
  - inversion F as [|? ? L F']; subst. rewrite (setE_nat l i c L). cbn [bind].
    destruct (IH (set_nth i c l)) as (l' & -> & LL & H); [rewrite set_nth_length; exact F'|]. exists l'. split; [reflexivity|]. split; [rewrite LL; apply set_nth_length|].
    intros j. destruct (H j) as [H1 H2]. destruct (in_dec Nat.eq_dec j cols) as [I|N].
    + split; [intros _; apply H1, I|intros N; exfalso; apply N; right; exact I].
    + rewrite (H2 N), (set_nth_spec c l i j L). split.
      * intros [->|I]; [rewrite Nat.eqb_refl; reflexivity|contradiction].
      * intros N'. rewrite (proj2 (Nat.eqb_neq j i)); [reflexivity|]. intros ->. apply N'. left. reflexivity.
Qed.
Lemma zmember_nat j l : zmember (Z.of_nat j) (map Z.of_nat l) = true <-> In j l.
Proof.
  unfold zmember. rewrite existsb_exists. split.
  - intros (x & I & E). apply Z.eqb_eq in E. subst x. apply in_map_iff in I. destruct I as (k & E & I). apply Nat2Z.inj in E. subst k. exact I.
  - intros I. exists (Z.of_nat j). split; [apply in_map; exact I|apply Z.eqb_refl].
Qed.
Lemma set_dates_spec c ints parts cols : forall i l, Forall (fun j => (j < length l)%nat) cols -> (i + length cols <= length parts)%nat ->
  exists l', set_dates (map Z.of_nat ints) parts (Z.of_nat i) (map Z.of_nat cols) c l = Ok l' /\ length l' = length l /\
  forall j, ((exists m p, nth_error cols m = Some j /\ nth_error parts (i + m) = Some p /\ ~ In j ints /\ contains "SOD" (upper p) = false) -> nth_error l' j = Some c) /\
    (~ (exists m p, nth_error cols m = Some j /\ nth_error parts (i + m) = Some p /\ ~ In j ints /\ contains "SOD" (upper p) = false) -> nth_error l' j = nth_error l j).
Proof.
  induction cols as [|k cols IH]; intros i l F L; cbn [map set_dates].
  - exists l. split; [reflexivity|]. split; [reflexivity|]. intros j. split; [|reflexivity]. intros (m & p & E & _). destruct m; discriminate E.
  - inversion F as [|? ? LK F']; subst. cbn [length] in L.
    destruct (nth_error parts i) as [p0|] eqn:P0; [|apply nth_error_None in P0; lia].
    set (hit := negb (zmember (Z.of_nat k) (map Z.of_nat ints)) && negb (contains "SOD" (upper p0))).
    assert (ST : (if zmember (Z.of_nat k) (map Z.of_nat ints) then Ok l else p <- getE parts (Z.of_nat i) ;; if contains "SOD" (upper p) then Ok l else setE l (Z.of_nat k) c) = Ok (if hit then set_nth k c l else l)).
    { unfold hit. destruct (zmember _ _); [reflexivity|]. rewrite (getE_nat parts i p0 P0). cbn [bind negb andb]. destruct (contains _ _); [reflexivity|]. apply setE_nat. exact LK. }
    rewrite ST. cbn [bind]. replace (Z.of_nat i + 1) with (Z.of_nat (S i)) by lia.
    set (l1 := if hit then set_nth k c l else l). assert (L1 : length l1 = length l) by (unfold l1; destruct hit; [apply set_nth_length|reflexivity]).
    destruct (IH (S i) l1) as (l' & -> & LL & H); [rewrite L1; exact F'|lia|]. exists l'. split; [reflexivity|]. split; [congruence|].
    assert (HIT : hit = true <-> ~ In k ints /\ contains "SOD" (upper p0) = false).
    { unfold hit. rewrite andb_true_iff, !negb_true_iff. split; intros [A B]; (split; [|exact B]).
      - intros I. apply zmember_nat in I. congruence.
      - apply not_true_is_false. intros I. apply A, zmember_nat, I. }
    assert (DEC : forall j, {exists m p, nth_error cols m = Some j /\ nth_error parts (S i + m) = Some p /\ ~ In j ints /\ contains "SOD" (upper p) = false} + {~ exists m p, nth_error cols m = Some j /\ nth_error parts (S i + m) = Some p /\ ~ In j ints /\ contains "SOD" (upper p) = false}).
    { intros j. clear - j. generalize (S i). intros s. destruct (in_dec Nat.eq_dec j ints) as [I|NI]; [right; intros (m & p & _ & _ & N & _); contradiction|].
      revert s. induction cols as [|a cols IH]; intros s; [right; intros (m & p & E & _); destruct m; discriminate E|].
      destruct (IH (S s)) as [Y|N].
      - left. destruct Y as (m & p & A & B & C). exists (S m), p. rewrite <- plus_n_Sm. auto.
      - destruct (Nat.eq_dec a j) as [->|NE]; [destruct (nth_error parts s) as [p|] eqn:E; [destruct (contains "SOD" (upper p)) eqn:C|]|].
        + right. intros ([|m] & q & A & B & D & X); [rewrite Nat.add_0_r in B; congruence|]. apply N. exists m, q. rewrite <- plus_n_Sm in B. auto.
        + left. exists 0%nat, p. rewrite Nat.add_0_r. auto.
        + right. intros ([|m] & q & A & B & D & X); [rewrite Nat.add_0_r in B; congruence|]. apply N. exists m, q. rewrite <- plus_n_Sm in B. auto.
        + right. intros ([|m] & q & A & B & D & X); [cbn in A; congruence|]. apply N. exists m, q. rewrite <- plus_n_Sm in B. auto. }
    intros j. destruct (H j) as [H1 H2]. destruct (DEC j) as [Y|N].
    + split; [intros _; exact (H1 Y)|]. intros X. exfalso. apply X. destruct Y as (m & p & A & B & C). exists (S m), p. rewrite <- plus_n_Sm. auto.
    + rewrite (H2 N). unfold l1. split.
      * intros ([|m] & p & A & B & C & D).
        -- cbn in A. injection A as <-. rewrite Nat.add_0_r in B. rewrite P0 in B. injection B as <-. rewrite (proj2 HIT) by (split; assumption). rewrite (set_nth_spec c l k k LK), Nat.eqb_refl. reflexivity.
        -- exfalso. apply N. exists m, p. rewrite <- plus_n_Sm in B. auto.
      * intros X. destruct hit eqn:HH; [|reflexivity]. rewrite (set_nth_spec c l k j LK). destruct (Nat.eqb_spec j k) as [->|_]; [|reflexivity].
        exfalso. apply X. exists 0%nat, p0. rewrite Nat.add_0_r. destruct (proj1 HIT eq_refl) as [Q1 Q2]. auto.
Qed.
