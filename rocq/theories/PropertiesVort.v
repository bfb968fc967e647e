(** C64, C65: vorticity files. *)
From Coq Require Import String Ascii ZArith List Bool Lia.
From Verif Require Import PyBase PyString TimeModel TimeSpec TimeProofs FilesModel FilesProofs TextSpec TextProofs SmagModel SmagSpec SmagProofs LoadProofs
  VortModel VortSpec VortProofs PropertiesSmag.
Import ListNotations.
Open Scope string_scope.
Open Scope list_scope.
Open Scope Z_scope.

Fixpoint nodupb (l : list str) : bool := match l with [] => true | a :: r => negb (member a r) && nodupb r end.
Lemma nodupb_spec l : nodupb l = true -> NoDup l.
Proof.
  induction l as [|a r IH]; [constructor|]. cbn [nodupb]. intros H. apply andb_true_iff in H. destruct H as [H1 H2]. constructor; [|apply IH; exact H2].
  intros I. apply member_spec in I. rewrite I in H1. discriminate.
Qed.
Lemma lookup_in {A} k (v : A) t : NoDup (map fst t) -> In (k, v) t -> lookup k t = Some v.
Proof.
  induction t as [|[k0 v0] t IH]; intros N I; [destruct I|]. cbn [map fst] in N. inversion N as [|? ? NI N']; subst. cbn [lookup].
  destruct I as [E|I].
  - injection E as -> ->. rewrite (proj2 (str_eqb_spec k k) eq_refl). reflexivity.
  - destruct (str_eqb k k0) eqn:E; [|exact (IH N' I)]. apply str_eqb_spec in E. subst k0. exfalso. apply NI. exact (in_map fst _ _ I).
Qed.

Section S.
Context {V : Type} (pf : str -> res V) (secs : V -> res Z) (sa : bool).
Notation wanted := (vort_keys sa).
Notation load := (load_vort pf secs true).
Lemma key_name k : In k wanted -> exists k', k = s2l k' /\ wanted_column sa k'.
Proof.
  intros I. destruct sa; cbn [vort_keys app map In] in I.
  - repeat (destruct I as [<-|I]); try destruct I; (eexists; split; [reflexivity|]); first [left; cbn; tauto|right; split; [reflexivity|split; [cbn; tauto|split; discriminate]]].
  - repeat (destruct I as [<-|I]); try destruct I; (eexists; split; [reflexivity|]); left; cbn; tauto.
Qed.
Lemma full_table recs (t : table V) : holds pf secs sa recs t -> forallb (fun p => match snd p with [] => false | _ => true end) t = match recs with [] => false | _ => true end.
Proof.
  intros [K C]. assert (ND : NoDup (map fst t)) by (rewrite K; apply nodupb_spec; destruct sa; vm_compute; reflexivity).
  assert (CC : forall k l, In (k, l) t -> length l = length recs).
  { intros k l I. destruct (key_name k) as (k' & -> & W); [rewrite <- K; exact (in_map fst _ _ I)|]. destruct (C k' W) as (cells & L & F).
    rewrite (lookup_in _ _ _ ND I) in L. injection L as <-. symmetry. exact (F2_length _ _ _ F). }
  destruct recs as [|r recs].
  - destruct t as [|[k l] t]; [destruct sa; discriminate K|]. specialize (CC k l (or_introl eq_refl)). destruct l; [reflexivity|discriminate CC].
  - apply forallb_forall. intros [k l] I. cbn [snd]. specialize (CC k l I). destruct l; [discriminate CC|reflexivity].
Qed.
Notation finish := (fun t' : table V => if forallb (fun p => match snd p with [] => false | _ => true end) t' then Ok (Some t') else Ok None).
Lemma load_tail size hs bs liness : 0 < size <= 2000000000 -> Forall vheader hs -> Forall2 (whole_vblock pf secs sa) bs liness ->
  exists t, holds pf secs sa (entries_of bs) t /\ forall tail, (bs = [] -> skip_header tail = tail) ->
    exists f, (2 * length tail <= f)%nat /\ load size sa (hs ++ concat liness ++ tail) = (t' <- vort_loop pf secs wanted f Date tail t ;; finish t').
Proof.
  intros N H F. destruct (vblocks_step pf secs sa bs liness F [] _ (holds_start pf secs sa)) as (t & E & HT). exists t. split; [exact HT|]. intros tail T.
  unfold load_vort. rewrite (proj2 (C66_size_gate true size ltac:(lia)) (conj eq_refl N)). cbn [negb]. cbv zeta.
  rewrite (header_skip hs _ H). assert (SK : skip_header (concat liness ++ tail) = concat liness ++ tail).
  { destruct bs as [|b bs]; [inversion F; subst; apply T; reflexivity|]. apply (skip_blocks pf secs sa (b :: bs)); [exact F|discriminate]. }
  rewrite SK. pose proof (block_lines pf secs sa _ _ F) as BL. rewrite app_length.
  specialize (E tail (2 * (length (concat liness) + length tail) - 3 * length bs)%nat).
  replace (3 * length bs + (2 * (length (concat liness) + length tail) - 3 * length bs))%nat with (2 * (length (concat liness) + length tail))%nat in E by lia.
  exists (2 * (length (concat liness) + length tail) - 3 * length bs)%nat. split; [lia|]. rewrite E. reflexivity.
Qed.
Lemma load_all size hs (bs : list (vblock V)) liness t : (forall tail, (bs = [] -> skip_header tail = tail) ->
    exists f, (2 * length tail <= f)%nat /\ load size sa (hs ++ concat liness ++ tail) = (t' <- vort_loop pf secs wanted f Date tail t ;; finish t')) ->
  load size sa (hs ++ concat liness) = finish t.
Proof. intros L. destruct (L [] (fun _ => eq_refl)) as (f & _ & E). rewrite app_nil_r in E. rewrite E. destruct f; reflexivity. Qed.

(** ** C64 *)
(** Every entry of a well-written file, in order, fills one place of every column; a file
    without entries gives None. *)
Theorem C64_every_entry_loaded size hs bs liness : 0 < size <= 2000000000 -> Forall vheader hs -> Forall2 (whole_vblock pf secs sa) bs liness ->
  (entries_of bs = [] -> load size sa (hs ++ concat liness) = Ok None) /\
  (entries_of bs <> [] -> exists t, load size sa (hs ++ concat liness) = Ok (Some t) /\
    (forall k, In k (map fst t) <-> exists k', k = s2l k' /\ wanted_column sa k') /\
    forall k, wanted_column sa k -> exists cells, lookup (s2l k) t = Some cells /\
      Forall2 (fun p c => vvalue pf secs k (fst p) (snd p) c) (entries_of bs) cells).
Proof.
  intros N H F. destruct (load_tail size hs bs liness N H F) as (t & HT & E). rewrite (load_all _ _ _ _ _ E), (full_table _ _ HT). split; intros NE.
  - rewrite NE. reflexivity.
  - destruct (entries_of bs) as [|r rs] eqn:R; [contradiction|]. rewrite <- R in *. exists t. split; [reflexivity|]. destruct HT as [K C]. split; [|exact C].
    intros k. rewrite K. split; [apply key_name|]. intros (k' & -> & W). apply wanted_in. exact W.
Qed.
(** A file that is missing or has the wrong size gives None. *)
Theorem C64_file_refused isfile size lines : isfile = false \/ size = 0 \/ 2000000000 < size -> load_vort pf secs isfile size sa lines = Ok None.
Proof.
  intros H. unfold load_vort. replace (test_file isfile size) with false; [reflexivity|]. symmetry. unfold test_file.
  destruct isfile; [|reflexivity]. cbn [negb]. destruct H as [H|[->|H]]; [discriminate|reflexivity|]. apply Z.ltb_lt in H. rewrite H. reflexivity.
Qed.
(** A block with fewer entries than announced, or with more, followed by another block. *)
Lemma no_header_block b c lines rest : written_vblock pf secs sa b c lines -> skip_header (lines ++ rest) = lines ++ rest.
Proof. intros (dl & cl & els & -> & D & _). cbn [app]. apply (no_header pf b). exact D. Qed.
Lemma wrong_line st rest line (t : table V) n : length (words [] line) <> 7%nat -> entries pf wanted (S n) st (line :: rest) t = Err IOError \/ exists e, entries pf wanted (S n) st (line :: rest) t = Err e /\ appends (stamp_cells st) t = Err e.
Proof.
  intros L. cbn [entries]. fold (stamp_cells st). destruct (appends (stamp_cells st) t) as [t1|e]; [left|right; exists e; split; reflexivity].
  cbn [bind]. change bkeys with [map s2l names1; map s2l names2; map s2l names3]. cbn [entry_lines].
  replace (length (words [] line) =? length (map s2l names1))%nat with false by (symmetry; apply Nat.eqb_neq; exact L). reflexivity.
Qed.
Lemma stamps_fit recs (t : table V) st : holds pf secs sa recs t -> exists t', appends (stamp_cells st) t = Ok t'.
Proof.
  intros [K _]. destruct (appends_spec (stamp_cells st) t) as (t' & -> & _); [|eexists; reflexivity]. rewrite K.
  repeat constructor; cbn [fst]; apply member_spec; destruct sa; reflexivity.
Qed.
Theorem C64_count_too_large size hs bs liness b count lines (b2 : vblock V) dl rest : 0 < size <= 2000000000 -> Forall vheader hs ->
  Forall2 (whole_vblock pf secs sa) bs liness -> written_vblock pf secs sa b count lines -> zlen (vb_ent b) < count -> written_vdate pf b2 dl ->
  load size sa (hs ++ concat liness ++ lines ++ dl :: rest) = Err IOError.
Proof.
  intros N H F W LT D2. destruct (load_tail size hs bs liness N H F) as (t & HT & LT'). destruct (LT' (lines ++ dl :: rest) (fun _ => no_header_block _ _ _ _ W)) as (f & LF & ->). clear LT'.
  destruct W as (d0 & cl & els & -> & D & (i & I) & C & FE). cbn [app length] in LF. rewrite app_length in LF. cbn [length] in LF. cbn [app].
  destruct f as [|[|[|f]]]; try lia. destruct (block_head pf secs sa b count d0 cl i D I C) as (st & ST & ->).
  destruct (entries_step pf secs sa b st _ _ ST FE _ _ HT) as (t' & E' & H').
  assert (EN : entries pf wanted (Z.to_nat count) st (concat els ++ dl :: rest) t = Err IOError).
  { replace (Z.to_nat count) with (length (vb_ent b) + S (Z.to_nat count - length (vb_ent b) - 1))%nat by (unfold zlen in LT; lia). rewrite E'.
    assert (L4 : length (words [] dl) <> 7%nat) by (destruct D2 as (wy & wm & wd & wh & S & _); rewrite (words_spaced _ _ S); discriminate).
    destruct (wrong_line st rest dl t' (Z.to_nat count - length (vb_ent b) - 1) L4) as [E|(e & _ & E)]; [exact E|]. destruct (stamps_fit _ _ st H') as [? E2]. congruence. }
  destruct (concat els ++ dl :: rest) as [|l0 r0] eqn:EQ; [destruct (concat els); discriminate EQ|]. cbn [vort_loop]. rewrite EN. reflexivity.
Qed.
Theorem C64_count_too_small size hs bs liness b count lines rest : 0 < size <= 2000000000 -> Forall vheader hs ->
  Forall2 (whole_vblock pf secs sa) bs liness -> written_vblock pf secs sa b count lines -> count < zlen (vb_ent b) -> vb_ent b <> [] ->
  load size sa (hs ++ concat liness ++ lines ++ rest) = Err IOError.
Proof.
  intros N H F W LT NE. destruct (load_tail size hs bs liness N H F) as (t & HT & LT'). destruct (LT' (lines ++ rest) (fun _ => no_header_block _ _ _ _ W)) as (f & LF & ->). clear LT'.
  destruct W as (d0 & cl & els & -> & D & (i & I) & C & FE). cbn [app length] in LF. rewrite app_length in LF. cbn [app].
  remember (Z.to_nat count) as n eqn:EN. assert (LN : (n < length (vb_ent b))%nat) by (unfold zlen in LT; rewrite EN; destruct (vb_ent b); [contradiction|cbn [length] in *; lia]).
  (* the announced entries, then one more *)
  assert (SP : exists es1 e els1 ls els2, length es1 = n /\ els = els1 ++ ls :: els2 /\ Forall2 (written_entry pf sa) es1 els1 /\ written_entry pf sa e ls).
  { clear - FE LN. revert n LN. induction FE as [|e ls es els W FE IH]; intros n LN; cbn [length] in LN; [lia|]. destruct n as [|n].
    - exists [], e, [], ls, els. split; [reflexivity|]. split; [reflexivity|]. split; [constructor|exact W].
    - destruct (IH n ltac:(lia)) as (es1 & e' & els1 & ls' & els2 & L & -> & F1 & W1). exists (e :: es1), e', (ls :: els1), ls', els2.
      split; [cbn [length]; lia|]. split; [reflexivity|]. split; [constructor; assumption|exact W1]. }
  destruct SP as (es1 & e & els1 & ls & els2 & L1 & -> & F1 & ((l1 & l2 & l3 & -> & S1 & _) & LE & _)).
  destruct f as [|[|[|[|f]]]]; try (rewrite concat_app in LF; cbn [concat app] in LF; rewrite app_length in LF; cbn [length] in LF; lia). destruct (block_head pf secs sa b count d0 cl i D I C) as (st & ST & ->).
  rewrite concat_app, <- app_assoc. cbn [concat app].
  destruct (entries_step pf secs sa b st _ _ ST F1 _ _ HT) as (t' & E' & H').
  specialize (E' 0%nat (l1 :: l2 :: l3 :: concat els2 ++ rest)). rewrite Nat.add_0_r, L1 in E'. cbn [entries] in E'.
  destruct (concat els1 ++ l1 :: l2 :: l3 :: concat els2 ++ rest) as [|l0 r0] eqn:EQ; [destruct (concat els1); discriminate EQ|]. cbn [vort_loop]. rewrite <- EN, E'. cbn [bind fst snd vort_loop].
  rewrite (words_spaced _ _ S1). unfold vdate_line. destruct (e1 e) as [|? [|? [|? [|? [|]]]]]; try discriminate LE. reflexivity.
Qed.
(** A date line followed by a line that is not a single word. *)
Theorem C64_count_not_one_word size hs bs liness b dl i ws cl rest : 0 < size <= 2000000000 -> Forall vheader hs ->
  Forall2 (whole_vblock pf secs sa) bs liness -> written_vdate pf b dl -> vinstant secs b i -> spaced ws cl -> length ws <> 1%nat ->
  load size sa (hs ++ concat liness ++ dl :: cl :: rest) = Err IOError.
Proof.
  intros N H F D I S1 L. destruct (load_tail size hs bs liness N H F) as (t & HT & LT').
  assert (SK : skip_header (dl :: cl :: rest) = dl :: cl :: rest) by (apply (no_header pf b); exact D).
  destruct (LT' (dl :: cl :: rest) (fun _ => SK)) as (f & LF & ->). clear LT'.
  cbn [length] in LF. destruct f as [|[|f]]; try lia. destruct (vdate_spec _ _ _ _ _ D I) as (st & E & ST). cbn [vort_loop]. rewrite E. cbn [bind vort_loop].
  rewrite (words_spaced _ _ S1). unfold count_line. destruct ws as [|w [|w' ws]]; [reflexivity|contradiction|reflexivity].
Qed.
(** A blank line between blocks or at the end. *)
Theorem C64_blank_line_raises size hs bs liness line rest : 0 < size <= 2000000000 -> Forall vheader hs -> Forall2 (whole_vblock pf secs sa) bs liness ->
  blank line -> load size sa (hs ++ concat liness ++ line :: rest) = Err IOError.
Proof.
  intros N H F B. assert (WB : words [] line = []) by (apply words_spaced; constructor; exact B).
  destruct (load_tail size hs bs liness N H F) as (t & HT & LT'). destruct (LT' (line :: rest)) as (f & LF & ->); [intros _; cbn [skip_header]; rewrite WB; reflexivity|].
  cbn [length] in LF. destruct f; [lia|]. cbn [vort_loop]. rewrite WB. reflexivity.
Qed.
(** The loop ends. *)
Lemma py_int_fuel s : py_int s <> Err OutOfFuel.
Proof. unfold py_int. destruct s as [|c r]; [discriminate|]. repeat match goal with |- context [if ?b then _ else _] => destruct b end; discriminate. Qed.
Lemma sp_fuel s : sp_time s <> Err OutOfFuel.
Proof.
  unfold sp_time. destruct s; try discriminate. unfold mk_datetime. repeat match goal with |- context [if ?b then _ else _] => destruct b end; discriminate.
Qed.
Lemma append_fuel k c (t : table V) : append k c t <> Err OutOfFuel.
Proof. induction t as [|[k0 l] t IH]; [discriminate|]. cbn [append]. destruct (str_eqb k k0); [discriminate|]. destruct (append k c t); cbn [bind]; [discriminate|intros E; apply IH; congruence]. Qed.
Lemma appends_fuel kcs : forall t : table V, appends kcs t <> Err OutOfFuel.
Proof. induction kcs as [|[k c] kcs IH]; intros t; [discriminate|]. cbn [appends]. pose proof (append_fuel k c t). destruct (append k c t); cbn [bind]; [apply IH|congruence]. Qed.
Section T.
Hypothesis pf_ends : forall s, pf s <> Err OutOfFuel.
Hypothesis secs_ends : forall v, secs v <> Err OutOfFuel.
Lemma save_fuel kws : forall t, save_keys pf wanted kws t <> Err OutOfFuel.
Proof.
  induction kws as [|[k w] kws IH]; intros t; [discriminate|]. cbn [save_keys]. destruct (member k wanted); [|apply IH].
  pose proof (pf_ends w). destruct (pf w) as [v|]; cbn [bind]; [|congruence]. pose proof (append_fuel k (CF v) t). destruct (append k (CF v) t); cbn [bind]; [apply IH|congruence].
Qed.
Lemma entry_fuel bks : forall lines t, entry_lines pf wanted bks lines t <> Err OutOfFuel /\ forall p, entry_lines pf wanted bks lines t = Ok p -> (length (snd p) <= length lines)%nat.
Proof.
  induction bks as [|bk bks IH]; intros lines t; cbn [entry_lines].
  - split; [discriminate|]. intros p E. injection E as <-. apply le_n.
  - destruct (negb _); [split; discriminate|]. match goal with |- context [save_keys pf wanted ?a t] => pose proof (save_fuel a t); destruct (save_keys pf wanted a t) as [t1|] end; cbn [bind]; [|split; [congruence|discriminate]].
    destruct (IH (tl lines) t1) as [A B]. split; [exact A|]. intros p E. specialize (B p E). destruct lines; cbn [tl length] in *; lia.
Qed.
Lemma entries_fuel n st : forall lines t, entries pf wanted n st lines t <> Err OutOfFuel /\ forall p, entries pf wanted n st lines t = Ok p -> (length (snd p) <= length lines)%nat.
Proof.
  induction n as [|n IH]; intros lines t; cbn [entries].
  - split; [discriminate|]. intros p E. injection E as <-. apply le_n.
  - fold (stamp_cells st). pose proof (appends_fuel (stamp_cells st) t). destruct (appends (stamp_cells st) t) as [t1|]; cbn [bind]; [|split; [congruence|discriminate]].
    destruct (entry_fuel bkeys lines t1) as [A B]. destruct (entry_lines pf wanted bkeys lines t1) as [p1|]; cbn [bind]; [|split; [congruence|discriminate]].
    destruct (IH (snd p1) (fst p1)) as [A2 B2]. split; [exact A2|]. intros p E. specialize (B p1 eq_refl). specialize (B2 p E). lia.
Qed.
Lemma loop_fuel f : forall x lines t, (2 * length lines + match x with Entries _ _ => 1 | _ => 0 end <= f)%nat -> vort_loop pf secs wanted f x lines t <> Err OutOfFuel.
Proof.
  induction f as [|f IH]; intros x lines t L; (destruct lines as [|l r]; [destruct x; discriminate|]); cbn [length] in L; [lia|]. cbn [vort_loop]. destruct x as [|st|st n].
  - assert (D : vdate_line pf secs (words [] l) <> Err OutOfFuel).
    { unfold vdate_line. destruct (words [] l) as [|wy [|wm [|wd [|wh [|]]]]]; try discriminate.
      pose proof (py_int_fuel wy). destruct (py_int wy); cbn [bind]; [|congruence]. pose proof (py_int_fuel wm). destruct (py_int wm); cbn [bind]; [|congruence].
      pose proof (py_int_fuel wd). destruct (py_int wd); cbn [bind]; [|congruence]. pose proof (pf_ends wh). destruct (pf wh) as [hh|]; cbn [bind]; [|congruence].
      match goal with |- context [sp_time ?a] => pose proof (sp_fuel a); destruct (sp_time a) as [day|] end; cbn [bind]; [|congruence].
      pose proof (secs_ends hh). destruct (secs hh) as [sc|]; cbn [bind]; [|congruence]. unfold add_us. destruct (_ && _); cbn [bind]; discriminate. }
    destruct (vdate_line pf secs (words [] l)); cbn [bind]; [apply IH; lia|congruence].
  - assert (D : count_line (words [] l) <> Err OutOfFuel) by (unfold count_line; destruct (words [] l) as [|w [|]]; try discriminate; apply py_int_fuel).
    destruct (count_line (words [] l)); cbn [bind]; [apply IH; lia|congruence].
  - destruct (entries_fuel (Z.to_nat n) st (l :: r) t) as [A B]. destruct (entries pf wanted (Z.to_nat n) st (l :: r) t) as [p|]; cbn [bind]; [|congruence].
    apply IH. specialize (B p eq_refl). cbn [length] in B. lia.
Qed.
Theorem C64_terminates isfile size lines : load_vort pf secs isfile size sa lines <> Err OutOfFuel.
Proof.
  unfold load_vort. destruct (negb (test_file isfile size)); [discriminate|]. cbv zeta. set (body := skip_header lines). set (t0 := map (fun k => (k, [])) wanted).
  assert (L : vort_loop pf secs wanted (2 * length body) Date body t0 <> Err OutOfFuel) by (apply loop_fuel; lia).
  destruct (vort_loop pf secs wanted (2 * length body) Date body t0); cbn [bind]; [destruct (forallb _ _); discriminate|congruence].
Qed.
End T.

(** ** C65 *)
(** A file cut inside the entries of a block raises an error... *)
Theorem C65_cut_entries_partial size hs bs liness b count lines part : 0 < size <= 2000000000 -> Forall vheader hs ->
  Forall2 (whole_vblock pf secs sa) bs liness -> written_vblock pf secs sa b count lines -> zlen (vb_ent b) < count ->
  (length part < 3)%nat -> vb_ent b <> [] \/ part <> [] ->
  exists e, load size sa (hs ++ concat liness ++ lines ++ part) = Err e.
Proof.
  intros N H F W LT LP NE. destruct (load_tail size hs bs liness N H F) as (t & HT & LT'). destruct (LT' (lines ++ part) (fun _ => no_header_block _ _ _ _ W)) as (f & LF & ->). clear LT'.
  destruct W as (d0 & cl & els & -> & D & (i & I) & C & FE). cbn [app length] in LF. cbn [app].
  destruct f as [|[|[|f]]]; try lia. destruct (block_head pf secs sa b count d0 cl i D I C) as (st & ST & ->).
  destruct (entries_step pf secs sa b st _ _ ST FE _ _ HT) as (t' & E' & H').
  assert (EN : exists e, entries pf wanted (Z.to_nat count) st (concat els ++ part) t = Err e).
  { replace (Z.to_nat count) with (length (vb_ent b) + S (Z.to_nat count - length (vb_ent b) - 1))%nat by (unfold zlen in LT; lia). rewrite E'.
    cbn [entries]. fold (stamp_cells st). destruct (appends (stamp_cells st) t') as [t1|e]; cbn [bind]; [|exists e; reflexivity].
    assert (G : exists e, entry_lines pf wanted bkeys part t1 = Err e).
    { change bkeys with [map s2l names1; map s2l names2; map s2l names3]. destruct part as [|p1 [|p2 [|]]]; cbn [length] in LP; try lia; cbn [entry_lines tl]; try (eexists; reflexivity).
      - destruct (negb _); [eexists; reflexivity|]. destruct (save_keys pf wanted _ t1); cbn [bind]; eexists; reflexivity.
      - destruct (negb _); [eexists; reflexivity|]. destruct (save_keys pf wanted _ t1) as [t2|]; cbn [bind]; [|eexists; reflexivity].
        destruct (negb _); [eexists; reflexivity|]. destruct (save_keys pf wanted _ t2); cbn [bind]; eexists; reflexivity. }
    destruct G as [e ->]. exists e. reflexivity. }
  destruct EN as [e EN]. exists e. destruct (concat els ++ part) as [|l0 r0] eqn:EQ.
  - exfalso. apply app_eq_nil in EQ. destruct EQ as [EQ ->]. destruct NE as [NE|NE]; [|contradiction].
    inversion FE as [|e0 ls0 es0 els0 W0 FE0]; subst; [congruence|]. destruct W0 as ((l1 & l2 & l3 & -> & _) & _). discriminate EQ.
  - cbn [vort_loop]. rewrite EN. reflexivity.
Qed.
(** ... but one cut after the date or the number of entries is read as if the block was not
    there, whatever the number announced. *)
Theorem C65_cut_block_refuted size hs bs liness (b : vblock V) count dl cl k : 0 < size <= 2000000000 -> Forall vheader hs ->
  Forall2 (whole_vblock pf secs sa) bs liness -> written_vdate pf b dl -> (exists t, vinstant secs b t) -> written_count count cl ->
  load size sa (hs ++ concat liness ++ firstn k [dl; cl]) = load size sa (hs ++ concat liness).
Proof.
  intros N H F D (i & I) C.
  assert (SK : skip_header (firstn k [dl; cl]) = firstn k [dl; cl]) by (destruct k as [|k]; [reflexivity|]; cbn [firstn]; apply (no_header pf b); exact D).
  destruct (load_tail size hs bs liness N H F) as (t & HT & L). rewrite (load_all _ _ _ _ _ L). destruct (L (firstn k [dl; cl]) (fun _ => SK)) as (f & LF & ->).
  destruct (vdate_spec pf secs b dl i D I) as (st & E & _).
  destruct k as [|[|k]]; [destruct f; reflexivity| |].
  - cbn [firstn length] in LF |- *. destruct f as [|[|f]]; try lia. cbn [vort_loop]. rewrite E. reflexivity.
  - assert (FK : firstn (S (S k)) [dl; cl] = [dl; cl]) by (cbn [firstn]; destruct k; reflexivity). rewrite FK in *. cbn [length] in LF. destruct f as [|[|[|f]]]; try lia.
    destruct (block_head pf secs sa b count dl cl i D I C) as (st' & _ & ->). reflexivity.
Qed.
End S.

(** ** A file meeting the hypotheses *)
Definition vdemo_secs (s : str) : res Z := Ok 49140.   (* 13.650 hours *)
Definition vdemo_e : vline :=
  mkEn (map s2l ["0"; "1"; "13"; "14"; "5532.5"; "0.0011232"; "3.0527"])
    (map s2l ["0"; "63.042"; "-134.232"; "63.147"; "-135.315"; "62.674"; "-134.453"; "62.928"; "-133.151"; "63.454"; "-133.977"])
    (map s2l ["1"; "66.751"; "-83.036"; "66.634"; "-84.178"; "66.357"; "-82.988"; "66.859"; "-81.876"; "67.192"; "-83.091"]).
Definition vdemo_b : vblock str := mkVb 2000 5 5 (s2l "13.650") [vdemo_e].
Definition vdemo_lines : list str := map s2l
  ["2000 5 5 13.650"; "1"; "0 1 13 14 5532.5 0.0011232 3.0527"; "0 63.042 -134.232 63.147 -135.315 62.674 -134.453 62.928 -133.151 63.454 -133.977";
   "1 66.751 -83.036 66.634 -84.178 66.357 -82.988 66.859 -81.876 67.192 -83.091"].
Lemma vdemo_whole sa : whole_vblock txt vdemo_secs sa vdemo_b vdemo_lines.
Proof.
  exists (s2l "2000 5 5 13.650"), (s2l "1"), [skipn 2 vdemo_lines]. split; [reflexivity|]. split; [|split; [|split]].
  - exists (s2l "2000"), (s2l "5"), (s2l "5"), (s2l "13.650"). split; [exact (joinb (map s2l ["2000"; "5"; "5"; "13.650"]) eq_refl)|]. split; [|split; [|split; [|reflexivity]]].
    + exists "2"%char, "0"%char, "0"%char, "0"%char, 2, 0, 0, 0. repeat split; try (cbn; lia).
    + split; [|cbn; lia]. apply (written_dval (s2l "5")); [discriminate|reflexivity].
    + split; [|cbn; lia]. apply (written_dval (s2l "5")); [discriminate|reflexivity].
  - eexists. exists (ordinal 2000 5 5), 49140, (ordinal 9999 12 31). split; [apply calendar_day_spec; repeat split; vm_compute; discriminate|]. split; [reflexivity|]. split; [reflexivity|].
    split; [vm_compute; discriminate|]. split; [apply calendar_day_spec; repeat split; vm_compute; discriminate|]. vm_compute. reflexivity.
  - exists (s2l "1"). split; [exact (joinb [s2l "1"] eq_refl)|]. apply intb_integer. reflexivity.
  - constructor; [|constructor]. split.
    + exists (s2l "0 1 13 14 5532.5 0.0011232 3.0527"), (s2l "0 63.042 -134.232 63.147 -135.315 62.674 -134.453 62.928 -133.151 63.454 -133.977"), (s2l "1 66.751 -83.036 66.634 -84.178 66.357 -82.988 66.859 -81.876 67.192 -83.091").
      split; [reflexivity|]. split; [exact (joinb (e1 vdemo_e) eq_refl)|]. split; [exact (joinb (e2 vdemo_e) eq_refl)|exact (joinb (e3 vdemo_e) eq_refl)].
    + split; [reflexivity|]. split; [reflexivity|]. split; [reflexivity|]. intros k w _ _. exists w. reflexivity.
Qed.
Example C64_hypotheses : 0 < 400 <= 2000000000 /\ Forall vheader [s2l "# vorticity"] /\ Forall2 (whole_vblock txt vdemo_secs true) [vdemo_b; vdemo_b] [vdemo_lines; vdemo_lines] /\ entries_of [vdemo_b; vdemo_b] <> [].
Proof.
  split; [lia|]. split; [constructor; [exists [s2l "vorticity"]; exact (joinb (map s2l ["#"; "vorticity"]) eq_refl)|constructor]|].
  split; [repeat constructor; apply vdemo_whole|discriminate].
Qed.
Example C64_case : exists t, load_vort txt vdemo_secs true 400 true ([s2l "# vorticity"] ++ vdemo_lines ++ vdemo_lines) = Ok (Some t) /\
  lookup (s2l "C4_MLON") t = Some [CF (s2l "-83.091"); CF (s2l "-83.091")] /\ lookup (s2l "MLT") t = Some [CF (s2l "3.0527"); CF (s2l "3.0527")] /\ length t = 32%nat.
Proof. eexists. split; [vm_compute; reflexivity|]. repeat split. Qed.
Example C65_case :
  load_vort txt vdemo_secs true 400 false (vdemo_lines ++ firstn 4 vdemo_lines) = Err IOError /\
  load_vort txt vdemo_secs true 400 false (vdemo_lines ++ firstn 2 vdemo_lines) = load_vort txt vdemo_secs true 400 false vdemo_lines.
Proof. split; vm_compute; reflexivity. Qed.
Example C64_two_words_case : load_vort txt vdemo_secs true 400 false (vdemo_lines ++ [hd [] vdemo_lines; s2l "1 1"]) = Err IOError.
Proof. vm_compute. reflexivity. Qed.
Print Assumptions C64_every_entry_loaded.
Print Assumptions C64_file_refused.
Print Assumptions C64_count_too_large.
Print Assumptions C64_count_too_small.
Print Assumptions C64_count_not_one_word.
Print Assumptions C64_blank_line_raises.
Print Assumptions C64_terminates.
Print Assumptions C65_cut_entries_partial.
Print Assumptions C65_cut_block_refuted.
