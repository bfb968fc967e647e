(** Tables in text files: lines, names and times. *)
From Coq Require Import String Ascii ZArith QArith List Bool Lia.
From Verif Require Import PyBase PyString TimeModel TimeSpec FilesModel FilesProofs TextSpec TextProofs SmagModel LoadProofs VortProofs GeneralModel GeneralSpec GeneralProofs.
Import ListNotations.
Open Scope string_scope.
Open Scope list_scope.
Open Scope Z_scope.

(** ** Lines *)
Lemma find_hash_app body rest : ~ In hash body -> find [hash] (body ++ rest) = option_map (fun i => (length body + i)%nat) (find [hash] rest).
Proof.
  induction body as [|c b IH]; intros N; [cbn [app length]; destruct (find [hash] rest); reflexivity|]. cbn [app find prefix].
  destruct (Ascii.eqb_spec hash c) as [E|_]; [exfalso; apply N; left; symmetry; exact E|]. cbn [andb]. rewrite IH by (intros I; apply N; right; exact I).
  destruct (find [hash] rest); reflexivity.
Qed.
Lemma before_hash body rest : ~ In hash body -> (rest = [] \/ exists c, rest = hash :: c) -> before [hash] (body ++ rest) = body.
Proof.
  intros N R. unfold before. rewrite (find_hash_app _ _ N). destruct R as [->|(c & ->)].
  - cbn [find prefix option_map]. apply app_nil_r.
  - cbn [find prefix]. rewrite Ascii.eqb_refl. cbn [andb]. destruct c; cbn [option_map]; rewrite Nat.add_0_r, firstn_app, Nat.sub_diag, firstn_all; apply app_nil_r.
Qed.
Lemma row_words ws l : row_line ws l -> words [] (before [hash] l) = ws.
Proof. intros (body & rest & -> & N & R & S). rewrite (before_hash _ _ N R). apply words_spaced, S. Qed.
Lemma data_rows rows ls : data_lines rows ls -> filter (fun r : list str => match r with [] => false | _ => true end) (map (fun l => words [] (cut_comment (Some [hash]) l)) ls) = rows.
Proof.
  induction 1 as [|l rows ls R D IH|r l rows ls N R D IH]; [reflexivity| |]; cbn [map].
  { change (cut_comment (Some [hash]) l) with (before [hash] l). rewrite (row_words _ _ R). exact IH. }
  change (cut_comment (Some [hash]) l) with (before [hash] l). rewrite (row_words _ _ R). cbn [filter]. rewrite IH. destruct r; [contradiction|reflexivity].
Qed.
Lemma table_2d n rows ls : data_lines rows ls -> (2 <= length rows)%nat -> (2 <= n)%nat -> Forall (fun r => length r = n) rows -> genfromtxt (Some [hash]) ls = Ok (Arr2 rows).
Proof.
  intros D L N F. unfold genfromtxt. rewrite (data_rows _ _ D). destruct rows as [|r0 [|r1 rows]]; cbn [length] in L; try lia.
  assert (E : forallb (fun r : list str => (length r =? length r0)%nat) (r0 :: r1 :: rows) = true).
  { apply forallb_forall. intros r I. rewrite Forall_forall in F. rewrite (F r I), (F r0 (or_introl eq_refl)). apply Nat.eqb_refl. }
  rewrite E. inversion F as [|? ? F0 _]; subst. destruct r0 as [|a [|b r0]]; cbn [length] in N; try lia. reflexivity.
Qed.
(** ** Names *)
Lemma lstrip_blank s : exists w, blank w /\ s = w ++ lstrip s.
Proof.
  induction s as [|c s (w & B & E)]; [exists []; split; [constructor|reflexivity]|]. cbn [lstrip]. destruct (isspace c) eqn:C.
  - exists (c :: w). split; [constructor; assumption|]. cbn [app]. rewrite <- E. reflexivity.
  - exists []. split; [constructor|reflexivity].
Qed.
Lemma words_end acc s w : blank w -> words acc (s ++ w) = words acc s.
Proof.
  intros B. revert acc. induction s as [|c s IH]; intros acc.
  - cbn [app]. destruct B as [|c w C B]; [reflexivity|]. cbn [words]. rewrite C. destruct acc; [apply (words_blank w []) in B; rewrite app_nil_r in B; exact B|].
    apply (words_blank w []) in B. rewrite app_nil_r in B. rewrite B. reflexivity.
  - cbn [app words]. destruct (isspace c); [destruct acc; rewrite IH; reflexivity|apply IH].
Qed.
Lemma strip_split s : exists a b, blank a /\ blank b /\ s = a ++ strip s ++ b.
Proof.
  unfold strip. destruct (lstrip_blank s) as (w & B & E). destruct (lstrip_blank (rev (lstrip s))) as (v & B2 & E2).
  exists w, (rev v). split; [exact B|]. split; [apply Forall_rev, B2|]. rewrite E at 1. f_equal. rewrite <- rev_app_distr, <- E2. symmetry. apply rev_involutive.
Qed.
Lemma words_strip s : words [] (strip s) = words [] s.
Proof.
  destruct (strip_split s) as (a & b & BA & BB & E). rewrite E at 2. rewrite (words_blank a _ BA). symmetry. apply words_end, BB.
Qed.
Lemma filter_nohash s : ~ In hash s -> filter (fun c => negb (Ascii.eqb c "#")) s = s.
Proof.
  induction s as [|c s IH]; intros N; [reflexivity|]. cbn [filter]. destruct (Ascii.eqb_spec c "#") as [->|_]; [exfalso; apply N; left; reflexivity|].
  cbn [negb]. rewrite IH; [reflexivity|]. intros I. apply N. right. exact I.
Qed.
(** Cutting blanks commutes with dropping the hashes, as far as the words are concerned. *)
Lemma blank_nohash w : blank w -> filter (fun c => negb (Ascii.eqb c "#")) w = w.
Proof. intros B. apply filter_nohash. intros I. unfold blank in B. rewrite Forall_forall in B. specialize (B _ I). discriminate B. Qed.
Lemma words_strip_hash s : words [] (filter (fun c => negb (Ascii.eqb c "#")) (strip s)) = words [] (filter (fun c => negb (Ascii.eqb c "#")) s).
Proof.
  destruct (strip_split s) as (a & b & BA & BB & E). rewrite E at 2. rewrite !filter_app, (blank_nohash a BA), (blank_nohash b BB), (words_blank a _ BA). symmetry. apply words_end, BB.
Qed.
Lemma names_read q names l : q_comments q = None -> q_hsplit q = None -> names_line names l -> names_of q l = names /\ names_of q (strip l) = names.
Proof.
  intros C H (body & S & N & E). unfold names_of. rewrite C, H, !words_strip, words_strip_hash.
  assert (X : filter (fun c => negb (Ascii.eqb c "#")) l = body). { destruct E as [->| ->]; [|cbn [filter hash]; rewrite Ascii.eqb_refl; cbn [negb]]; apply filter_nohash, N. }
  rewrite X, (words_spaced _ _ S). split; reflexivity.
Qed.
Lemma uniq_nodup l : forall seen, NoDup l -> (forall k, In k l -> ~ In k seen) -> uniq seen l = l.
Proof.
  induction l as [|k l IH]; intros seen N D; [reflexivity|]. cbn [uniq]. destruct (member k seen) eqn:M; [apply member_spec in M; exfalso; apply (D k); [left; reflexivity|exact M]|].
  inversion N as [|? ? NI N']; subst. rewrite IH; [reflexivity|exact N'|]. intros k' I [->|J]; [contradiction|]. apply (D k'); [right; exact I|exact J].
Qed.
(** ** Times *)
Lemma lower_upchar c : lower_char (upchar c) = lower_char c.
Proof. destruct c as [[|] [|] [|] [|] [|] [|] [|] [|]]; vm_compute; reflexivity. Qed.
Lemma lowers_upper p u : upper p = s2l u -> lowers p = lowers (s2l u).
Proof.
  intros E. rewrite <- E. unfold lowers, upper. rewrite map_map. apply map_ext. intros c. symmetry. apply lower_upchar.
Qed.
Lemma case_not_pct u p : ignoring_case u p -> (match s2l u with c :: _ => Ascii.eqb c "%" | [] => true end) = false -> match p with "%"%char :: _ => False | _ => True end.
Proof.
  intros E N. unfold ignoring_case in E. destruct p as [|c p]; [exact I|]. cbn [upper map] in E. rewrite <- E in N.
  destruct c as [[|] [|] [|] [|] [|] [|] [|] [|]]; vm_compute in N; try discriminate N; exact I.
Qed.
Lemma lookup_setkey {A} k k' (v : A) d : lookup k' (setkey k v d) = if str_eqb k' k then Some v else lookup k' d.
Proof.
  induction d as [|[k0 w] d IH]; cbn [setkey lookup].
  - reflexivity.
  - destruct (str_eqb k k0) eqn:E; cbn [lookup].
    + apply str_eqb_spec in E. subst k0. destruct (str_eqb k' k); reflexivity.
    + rewrite IH. destruct (str_eqb k' k0) eqn:E'; [|reflexivity]. apply str_eqb_spec in E'. subst k0. destruct (str_eqb k' k) eqn:E2; [|reflexivity].
      apply str_eqb_spec in E2. subst k'. rewrite str_eqb_refl in E. discriminate E.
Qed.
Definition key_of (u : use) : str :=
  match u with UYear => "year" | USoy => "soy" | USod => "sod" | UYyddd => "yyddd" | UDate => "date" | UTod => "tod" end.
Lemma key_inj u u' : key_of u = key_of u' -> u = u'. Proof. destruct u, u'; intros E; try reflexivity; discriminate E. Qed.
Lemma use_dec (u u' : use) : {u = u'} + {u <> u'}. Proof. decide equality. Defined.

Section T.
Context {V : Type} (pf : str -> res V) (toQ : V -> res Q).
Notation inputs := (inputs pf).
(** What a part makes of a text of its column. *)
Definition cell_for (u : use) (s : str) (c : cell V) : Prop :=
  match u with
  | UYear | USoy => exists z, integer z s /\ c = CZ z
  | USod => exists v, pf s = Ok v /\ c = CF v
  | _ => c = CS s
  end.
Lemma in_tf d : In d (list_ascii_of_string "HIpMSfzZ") <-> member [d] time_formats = true.
Proof.
  unfold member. rewrite existsb_exists. split.
  - cbn [In list_ascii_of_string]. intros H. exists [d]. split; [|apply str_eqb_refl]. repeat (destruct H as [<-|H]; [cbn; tauto|]). destruct H.
  - intros (x & I & E). apply str_eqb_spec in E. subst x. unfold time_formats in I. cbn [map In] in I. repeat (destruct I as [I|I]; [injection I as <-; cbn; tauto|]). destruct I.
Qed.
Lemma input_use p u s c (t : ctype) : good_part p -> used_for p u -> cell_for u s c ->
  (match u with UYear | USoy => t = TInt \/ exists n, t = TStr n /\ zlen s <= n | USod => t = TFloat \/ exists n, t = TStr n /\ zlen s <= n | _ => exists n, t = TStr n /\ zlen s <= n end) ->
  (u = UYear \/ u = USoy -> match c with CZ z => - 2 ^ 63 <= z < 2 ^ 63 | _ => True end) ->
  (x <- cast pf t s ;; input_of pf p x) = Ok (key_of u, c).
Proof.
  intros G U C T B.
  assert (CUT : forall n, zlen s <= n -> firstn (Z.to_nat n) s = s) by (intros n L; apply firstn_all2; unfold zlen in L; lia).
  assert (PL : forall w, ignoring_case w p -> (match s2l w with k :: _ => Ascii.eqb k "%" | [] => true end) = false -> forall x, input_of pf p x =
    (let k := lowers (s2l w) in if str_eqb k "year" || str_eqb k "soy" then match x with CZ z => Ok (k, CZ z) | CS s => z <- py_int s ;; Ok (k, CZ z) | _ => Err TypeError end
      else if str_eqb k "sod" then match x with CS s => v <- pf s ;; Ok (k, CF v) | _ => Ok (k, x) end else Ok (k, x))).
  { intros w W N x. pose proof (case_not_pct w p W N) as NP. rewrite <- (lowers_upper p w W). unfold input_of. destruct p as [|a p]; [reflexivity|].
    destruct a as [[|] [|] [|] [|] [|] [|] [|] [|]]; try reflexivity. destruct NP. }
  destruct u; cbn [used_for cell_for key_of] in *.
  - destruct C as (z & I & ->). pose proof (py_int_integer _ _ I) as PI. specialize (B (or_introl eq_refl)).
    destruct T as [->|(n & -> & L)]; cbn [cast]; [rewrite PI; cbn [bind]|rewrite (CUT n L); cbn [bind]; rewrite (PL "YEAR" U eq_refl); cbn; rewrite PI; reflexivity].
    assert (R : (- max_int64 - 1 <=? z) && (z <=? max_int64) = true) by (apply andb_true_iff; rewrite !Z.leb_le; unfold max_int64; lia). rewrite R. cbn [bind]. rewrite (PL "YEAR" U eq_refl). reflexivity.
  - destruct C as (z & I & ->). pose proof (py_int_integer _ _ I) as PI. specialize (B (or_intror eq_refl)).
    destruct T as [->|(n & -> & L)]; cbn [cast]; [rewrite PI; cbn [bind]|rewrite (CUT n L); cbn [bind]; rewrite (PL "SOY" U eq_refl); cbn; rewrite PI; reflexivity].
    assert (R : (- max_int64 - 1 <=? z) && (z <=? max_int64) = true) by (apply andb_true_iff; rewrite !Z.leb_le; unfold max_int64; lia). rewrite R. cbn [bind]. rewrite (PL "SOY" U eq_refl). reflexivity.
  - destruct C as (v & I & ->).
    destruct T as [->|(n & -> & L)]; cbn [cast]; [rewrite I; cbn [bind]; rewrite (PL "SOD" U eq_refl); reflexivity|rewrite (CUT n L); cbn [bind]; rewrite (PL "SOD" U eq_refl); cbn; rewrite I; reflexivity].
  - subst c. destruct T as (n & -> & L). cbn [cast]. rewrite (CUT n L). cbn [bind]. rewrite (PL "YYDDD" U eq_refl). reflexivity.
  - subst c. destruct T as (n & -> & L). cbn [cast]. rewrite (CUT n L). cbn [bind]. destruct U as (d & r & -> & N). cbn [input_of].
    destruct (member [d] time_formats) eqn:M; [exfalso; apply N, in_tf, M|reflexivity].
  - subst c. destruct T as (n & -> & L). cbn [cast]. rewrite (CUT n L). cbn [bind]. destruct U as (d & r & -> & N). cbn [input_of]. apply in_tf in N. rewrite N. reflexivity.
Qed.
(** The texts for a use, added to what is there. *)
Inductive acc (u : use) : option (cell V) -> list str -> option (cell V) -> Prop :=
| acc_end o : acc u o [] o
| acc_first s c r o : cell_for u s c -> acc u (Some c) r o -> acc u None (s :: r) o
| acc_more a s r o : u = UYyddd \/ u = UDate \/ u = UTod -> acc u (Some (CS (a ++ " "%char :: s))) r o -> acc u (Some (CS a)) (s :: r) o.
Lemma inputs_spec row types parts : forall cols i d (tx : use -> list str) (o : use -> option (cell V)),
  Forall good_part parts -> (i + length cols <= length parts)%nat ->
  (forall u, texts_for u row (skipn i parts) cols (tx u)) -> (forall u, acc u (lookup (key_of u) d) (tx u) (o u)) ->
  (forall m j p u s, nth_error cols m = Some j -> nth_error parts (i + m) = Some p -> used_for p u -> nth_error row j = Some s -> exists t, nth_error types j = Some t /\
     match u with UYear | USoy => (t = TInt \/ exists n, t = TStr n /\ zlen s <= n) /\ (forall z, integer z s -> - 2 ^ 63 <= z < 2 ^ 63) | USod => t = TFloat \/ exists n, t = TStr n /\ zlen s <= n | _ => exists n, t = TStr n /\ zlen s <= n end) ->
  (forall k, In k (map fst d) -> In k known_inputs) ->
  exists d', inputs row types parts (Z.of_nat i) (map Z.of_nat cols) d = Ok d' /\ (forall u, lookup (key_of u) d' = o u) /\ (forall k, In k (map fst d') -> In k known_inputs).
Proof.
  induction cols as [|j cols IH]; intros i d tx o G L TX AC TY KN; cbn [map GeneralModel.inputs].
  - exists d. split; [reflexivity|]. split; [|exact KN]. intros u. specialize (TX u). specialize (AC u). assert (E : tx u = []) by (inversion TX; reflexivity). rewrite E in AC. inversion AC; subst; congruence.
  - cbn [length] in L. destruct (nth_error parts i) as [p|] eqn:P; [|apply nth_error_None in P; lia].
    assert (SK : skipn i parts = p :: skipn (S i) parts). { clear - P. revert i P. induction parts as [|a parts IH]; intros [|i] P; try discriminate P; [injection P as ->; reflexivity|]. cbn [skipn]. rewrite (IH i P). destruct parts; reflexivity. }
    assert (GP : good_part p) by (rewrite Forall_forall in G; apply G; eapply nth_error_In; exact P).
    assert (EX : exists u, used_for p u).
    { destruct GP as (_ & [((dd & r & E) & _)|[[H|H]|[H|H]]]); [|exists UYear; exact H|exists USoy; exact H|exists USod; exact H|exists UYyddd; exact H].
      destruct (in_dec ascii_dec dd (list_ascii_of_string "HIpMSfzZ")) as [I|N]; [exists UTod|exists UDate]; exists dd, r; split; assumption. }
    destruct EX as (u & U).
    assert (UN : forall u', u' <> u -> ~ used_for p u').
    { intros u' N U'. apply N. clear - U U'. assert (PC : forall w, ignoring_case w p -> (match s2l w with k :: _ => Ascii.eqb k "%" | [] => true end) = false -> forall a r, p = "%"%char :: a :: r -> False).
      { intros w W N a r ->. exact (case_not_pct w _ W N). }
      assert (CC : forall w w', ignoring_case w p -> ignoring_case w' p -> s2l w = s2l w') by (intros w w' A B; unfold ignoring_case in *; congruence).
      destruct u, u'; cbn [used_for] in *; try reflexivity;
      try (exfalso; first [discriminate (CC _ _ U U')]);
      try (exfalso; destruct U' as (a & r & E & _); refine (PC _ U eq_refl a r E)); try (exfalso; destruct U as (a & r & E & _); refine (PC _ U' eq_refl a r E));
      destruct U as (a & r & E & H), U' as (a' & r' & E' & H'); rewrite E in E'; injection E' as <- <-; contradiction. }
    pose proof (TX u) as TU. rewrite SK in TU. inversion TU as [|? ? ? ? s ts _ RS TS E1 E2 E3|? ? ? ? ? NU]; subst; [|contradiction].
    rewrite (getE_nat row j s RS). cbn [bind]. destruct (TY 0%nat j p u s eq_refl ltac:(rewrite Nat.add_0_r; exact P) U RS) as (t & ET & TT). rewrite (getE_nat types j t ET). cbn [bind].
    pose proof (AC u) as AU. rewrite <- E3 in AU.
    assert (CELL : exists c, cell_for u s c /\ add_input (key_of u, c) d = Ok (setkey (key_of u) (match lookup (key_of u) d with Some (CS a) => CS (a ++ " "%char :: s) | _ => c end) d) /\
       acc u (Some (match lookup (key_of u) d with Some (CS a) => CS (a ++ " "%char :: s) | _ => c end)) ts (o u)).
    { inversion AU as [|? c ? ? C A E4|a ? ? ? K A E4]; subst.
      - exists c. split; [exact C|]. unfold add_input. cbn [fst snd]. rewrite <- E4. split; [reflexivity|exact A].
      - exists (CS s). split; [destruct K as [->|[->| ->]]; reflexivity|]. unfold add_input. cbn [fst snd]. rewrite <- E4. split; [reflexivity|exact A]. }
    destruct CELL as (c & CF & AD & AN).
    pose proof (input_use p u s c t GP U CF) as IU.
    assert (IUE : (x <- cast pf t s ;; input_of pf p x) = Ok (key_of u, c)).
    { apply IU; [destruct u; first [exact (proj1 TT)|exact TT]|]. intros Hu.
      destruct u; try (destruct Hu; discriminate); cbn [cell_for] in CF; destruct CF as (z & IZ & ->); exact (proj2 TT z IZ). }
    destruct (cast pf t s) as [x|e]; cbn [bind] in IUE |- *; [|discriminate IUE]. rewrite (getE_nat parts i p P). cbn [bind]. rewrite IUE. cbn [bind]. rewrite AD. cbn [bind].
    replace (Z.of_nat i + 1) with (Z.of_nat (S i)) by lia.
    apply (IH (S i) _ (fun u' => if use_dec u' u then ts else tx u') o G); [lia| | | |].
    + intros u'. destruct (use_dec u' u) as [->|N]; [exact TS|]. pose proof (TX u') as T'. rewrite SK in T'. inversion T' as [|? ? ? ? ? ? U'|]; subst; [exfalso; exact (UN u' N U')|assumption].
    + intros u'. rewrite lookup_setkey. destruct (use_dec u' u) as [->|N].
      * rewrite str_eqb_refl. exact AN.
      * rewrite str_eqb_neq; [apply AC|]. intros E. apply N, key_inj, E.
    + intros m j' p' u' s' A B. apply (TY (S m)); [exact A|rewrite <- plus_n_Sm; exact B].
    + intros k I. assert (KK : forall kk (v : cell V) dd, In k (map fst (setkey kk v dd)) -> k = kk \/ In k (map fst dd)).
      { intros kk v dd. induction dd as [|[k0 w] dd IHd]; cbn [setkey map fst In]; [intros [<-|[]]; left; reflexivity|].
        destruct (str_eqb kk k0); cbn [map fst In]; [tauto|]. intros [<-|J]; [tauto|]. destruct (IHd J); tauto. }
      apply KK in I. destruct I as [->|I]; [|apply KN, I]. destruct u; cbn; tauto.
Qed.
End T.
