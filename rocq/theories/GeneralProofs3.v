(** Tables in text files: the whole call. *)
From Coq Require Import String Ascii ZArith QArith List Bool Lia.
From Verif Require Import PyBase PyString TimeModel TimeSpec FilesModel FilesProofs TextSpec TextProofs SmagModel LoadProofs VortProofs GeneralModel GeneralSpec GeneralProofs GeneralProofs2.
Import ListNotations.
Open Scope string_scope.
Open Scope list_scope.
Open Scope Z_scope.

Section A.
Context {V : Type}.
Lemma one_line_appends (f : Z -> str -> res (cell V)) names : forall num cells t,
  Forall2 (fun p c => f (fst p) (snd p) = Ok c) (combine (map Z.of_nat (seq num (length names))) names) cells ->
  one_line f (Z.of_nat num) names t = appends (combine names cells) t.
Proof.
  induction names as [|k names IH]; intros num cells t F; cbn [length seq map combine one_line] in *.
  - inversion F; subst. reflexivity.
  - inversion F as [|? c ? cs E F']; subst. cbn [fst snd] in E. rewrite E. cbn [bind combine appends]. destruct (append k c t); cbn [bind]; [|reflexivity].
    replace (Z.of_nat num + 1) with (Z.of_nat (S num)) by lia. apply IH. exact F'.
Qed.
Lemma sel_combine keys : forall (cells : list (cell V)) i k, NoDup keys -> length cells = length keys -> nth_error keys i = Some k -> exists c, nth_error cells i = Some c /\ sel k (combine keys cells) = [c].
Proof.
  induction keys as [|k0 keys IH]; intros cells i k N L E; [destruct i; discriminate E|]. destruct cells as [|c0 cells]; [discriminate L|].
  inversion N as [|? ? NI N']; subst. cbn [length] in L. unfold sel. cbn [combine filter fst]. destruct i as [|i].
  - cbn in E. injection E as ->. exists c0. split; [reflexivity|]. rewrite str_eqb_refl. cbn [map snd]. f_equal.
    assert (X : forall cs, filter (fun p : str * cell V => str_eqb k (fst p)) (combine keys cs) = []).
    { clear - NI. induction keys as [|a keys IH]; intros [|c cs]; try reflexivity. cbn [combine filter fst]. rewrite str_eqb_neq by (intros ->; apply NI; left; reflexivity). apply IH. intros I. apply NI. right. exact I. }
    rewrite X. reflexivity.
  - cbn in E. assert (NE : k <> k0) by (intros ->; apply NI; eapply nth_error_In; exact E). rewrite (str_eqb_neq _ _ NE). exact (IH cells i k N' ltac:(lia) E).
Qed.
Lemma all_lines_spec {L} (f : L -> Z -> str -> res (cell V)) (val : L -> nat -> cell V -> Prop) keys : NoDup keys -> forall rows,
  (forall row i k, In row rows -> nth_error keys i = Some k -> exists c, f row (Z.of_nat i) k = Ok c /\ val row i c) ->
  forall t, map fst t = keys -> exists t', all_lines f keys rows t = Ok t' /\ map fst t' = keys /\
    forall i k l, nth_error keys i = Some k -> lookup k t = Some l -> exists cs, lookup k t' = Some (l ++ cs) /\ Forall2 (fun row c => val row i c) rows cs.
Proof.
  intros N rows. induction rows as [|row rows IH]; intros H t K; cbn [all_lines].
  - exists t. split; [reflexivity|]. split; [exact K|]. intros i k l _ E. exists []. rewrite app_nil_r. split; [exact E|constructor].
  - assert (CE : exists cells, Forall2 (fun p c => f row (fst p) (snd p) = Ok c) (combine (map Z.of_nat (seq 0 (length keys))) keys) cells /\ length cells = length keys /\ forall i c, nth_error cells i = Some c -> val row i c).
    { assert (X : forall ks num, (forall i k, nth_error ks i = Some k -> nth_error keys (num + i)%nat = Some k) ->
        exists cells, Forall2 (fun p c => f row (fst p) (snd p) = Ok c) (combine (map Z.of_nat (seq num (length ks))) ks) cells /\ length cells = length ks /\ forall i c, nth_error cells i = Some c -> val row (num + i)%nat c).
      { induction ks as [|k ks IHk]; intros num HK.
        - exists []. split; [constructor|]. split; [reflexivity|]. intros [|i] c E; discriminate E.
        - destruct (H row num k (or_introl eq_refl)) as (c & E & W); [rewrite <- (Nat.add_0_r num); apply HK; reflexivity|].
          destruct (IHk (S num)) as (cells & F & LL & W'). { intros i k' E'. specialize (HK (S i) k' E'). rewrite <- plus_n_Sm in HK. exact HK. }
          exists (c :: cells). cbn [length seq map combine]. split; [constructor; [exact E|exact F]|]. split; [lia|]. intros [|i] c' E'; [cbn in E'; injection E' as <-; rewrite Nat.add_0_r; exact W|].
          rewrite <- plus_n_Sm. apply (W' i c'). exact E'. }
      apply (X keys 0%nat). intros i k E. exact E. }
    destruct CE as (cells & F & LC & W). change 0 with (Z.of_nat 0). rewrite (one_line_appends (f row) keys 0 cells t F).
    destruct (appends_spec (combine keys cells) t) as (t1 & E1 & K1 & L1).
    { apply Forall_forall. intros [k c] I. cbn [fst]. rewrite K. eapply in_combine_l. exact I. }
    rewrite E1. cbn [bind]. destruct (IH (fun r i k I => H r i k (or_intror I)) t1 ltac:(congruence)) as (t2 & E2 & K2 & L2). exists t2. split; [exact E2|]. split; [exact K2|].
    intros i k l E LK. specialize (L1 k l LK). destruct (sel_combine keys cells i k N LC E) as (c & Ec & S). rewrite S in L1.
    destruct (L2 i k _ E L1) as (cs & L3 & F3). exists (c :: cs). rewrite <- app_assoc in L3. split; [exact L3|]. constructor; [apply W; exact Ec|exact F3].
Qed.
Lemma lookup_start keys k : In k keys -> lookup k (map (fun k => (k, @nil (cell V))) keys) = Some [].
Proof. induction keys as [|a keys IH]; intros I; [destruct I|]. cbn [map lookup]. destruct (str_eqb k a) eqn:E; [reflexivity|]. destruct I as [->|I]; [rewrite str_eqb_refl in E; discriminate E|exact (IH I)]. Qed.
Lemma start_keys (keys : list str) : map fst (map (fun k => (k, @nil (cell V))) keys) = keys.
Proof. rewrite map_map. cbn [fst]. apply map_id. Qed.
Lemma lookup_in_table k (v : list (cell V)) t : NoDup (map fst t) -> In (k, v) t -> lookup k t = Some v.
Proof.
  induction t as [|[k0 v0] t IH]; intros N I; [destruct I|]. cbn [map fst] in N. inversion N as [|? ? NI N']; subst. cbn [lookup]. destruct I as [E|I].
  - injection E as -> ->. rewrite str_eqb_refl. reflexivity.
  - destruct (str_eqb k k0) eqn:E; [|exact (IH N' I)]. apply str_eqb_spec in E. subst k0. exfalso. apply NI. exact (in_map fst _ _ I).
Qed.
End A.
Lemma free_key_spec ks names : (exists k, In k ks /\ ~ In k names) -> exists a k b, ks = a ++ k :: b /\ Forall (fun x => In x names) a /\ ~ In k names /\ free_key ks names = Ok k.
Proof.
  induction ks as [|k ks IH]; intros (x & I & N); [destruct I|]. cbn [free_key]. destruct (member k names) eqn:M.
  - apply member_spec in M. destruct I as [->|I]; [contradiction|]. destruct (IH (ex_intro _ x (conj I N))) as (a & k' & b & -> & F & N' & E). exists (k :: a), k', b. split; [reflexivity|]. split; [constructor; assumption|]. split; [exact N'|exact E].
  - exists [], k, ks. split; [reflexivity|]. split; [constructor|]. split; [|reflexivity]. intros J. apply member_spec in J. congruence.
Qed.

Lemma NoDup_app_intro_one {A} (l : list A) x : NoDup l -> ~ In x l -> NoDup (l ++ [x]).
Proof.
  induction l as [|a l IH]; intros N I; [repeat constructor; intros []|]. inversion N as [|? ? NA NL]; subst. cbn [app]. constructor.
  - rewrite in_app_iff. intros [J|[->|[]]]; [contradiction|]. apply I. left. reflexivity.
  - apply IH; [exact NL|]. intros J. apply I. right. exact J.
Qed.
Section B.
Context {V : Type} (pf : str -> res V) (toQ : V -> res Q).
Context (q : request) (ints strs dcols : list nat) (parts names : list str).
Notation longest := (longest q).
Notation asks := (asks q ints strs dcols parts).
Notation named := (named q names).
Notation first_lines := (first_lines q).
Notation val := (value pf ints strs dcols parts longest).
Notation intc := (integer_column ints strs dcols parts).
Notation textc := (text_column ints strs dcols parts).
Lemma whole_dec p : {whole_part p} + {~ whole_part p}.
Proof. unfold whole_part, ignoring_case. destruct (str_dec (upper p) (s2l "YEAR")) as [E|N]; [left; left; exact E|]. destruct (str_dec (upper p) (s2l "SOY")) as [E|N']; [left; right; exact E|]. right. intros [E|E]; contradiction. Qed.
Lemma find_col j : (exists i p, nth_error dcols i = Some j /\ nth_error parts i = Some p) \/ ~ (exists i p, nth_error dcols i = Some j /\ nth_error parts i = Some p).
Proof.
  generalize parts. intros ps. revert ps. induction dcols as [|a ds IH]; intros ps; [right; intros (i & p & E & _); destruct i; discriminate E|].
  destruct ps as [|p0 ps]; [right; intros (i & p & _ & E); destruct i; discriminate E|]. destruct (Nat.eq_dec a j) as [->|N]; [left; exists 0%nat, p0; split; reflexivity|].
  destruct (IH ps) as [(i & p & A & B)|X]; [left; exists (S i), p; split; assumption|]. right. intros ([|i] & p & A & B); [cbn in A; congruence|]. apply X. exists i, p. split; assumption.
Qed.
(** The types computed are those asked for. *)
Definition types_ok (n : nat) (types : list ctype) : Prop := length types = n /\
  forall j, (j < n)%nat -> exists t, nth_error types j = Some t /\ (intc j -> t = TInt) /\ (textc j -> t = TStr longest) /\ (~ intc j -> ~ textc j -> t = TFloat).
Lemma types_spec n : asks -> sound_request ints strs dcols parts n -> exists added,
  match q_fmt q with Some f => int_parts f | None => Ok [] end = Ok (map Z.of_nat added) /\ (forall j, In j added <-> exists p, nth_error parts j = Some p /\ whole_part p) /\
  exists ty1 ty2 types, set_types (q_int q ++ map Z.of_nat added) TInt (repeat TFloat n) = Ok ty1 /\ set_types (q_str q) (TStr longest) ty1 = Ok ty2 /\
    set_dates (q_int q ++ map Z.of_nat added) parts 0 (q_dtcols q) (TStr longest) ty2 = Ok types /\ types_ok n types /\ (dcols = [] -> types = ty2).
Proof.
  intros [A1 A2 A3 A4 A5] S. assert (AD : exists added, match q_fmt q with Some f => int_parts f | None => Ok [] end = Ok (map Z.of_nat added) /\ (forall j, In j added <-> exists p, nth_error parts j = Some p /\ whole_part p)).
  { destruct A4 as [(-> & -> & _)|(-> & NE)].
    - exists []. split; [reflexivity|]. intros j. split; [intros []|]. intros (p & E & _). destruct j; discriminate E.
    - destruct (int_parts_spec parts NE (sr_parts _ _ _ _ _ S)) as (added & E & X & Y). exists added. split; [exact E|]. intros j. split; [apply X|]. intros (p & P & W). exact (Y (sr_once _ _ _ _ _ S) j p P W). }
  destruct AD as (added & EA & IA). exists added. split; [exact EA|]. split; [exact IA|]. rewrite A1, A2, A3, <- map_app.
  assert (PL : forall j, In j added -> exists p, nth_error parts j = Some p /\ whole_part p /\ nth_error dcols j = Some j).
  { intros j I. apply IA in I. destruct I as (p & P & W). exists p. split; [exact P|]. split; [exact W|]. exact (sr_place _ _ _ _ _ S j p P W). }
  destruct (set_types_spec TInt (ints ++ added) (repeat TFloat n)) as (ty1 & -> & L1 & H1).
  { rewrite repeat_length. apply Forall_app. split; [exact (sr_ints _ _ _ _ _ S)|]. apply Forall_forall. intros j I. destruct (PL j I) as (p & _ & _ & D). pose proof (sr_dates _ _ _ _ _ S) as F. rewrite Forall_forall in F. apply F. eapply nth_error_In. exact D. }
  rewrite repeat_length in L1.
  destruct (set_types_spec (TStr longest) strs ty1) as (ty2 & E2 & L2 & H2); [rewrite L1; exact (sr_strs _ _ _ _ _ S)|].
  destruct (set_dates_spec (TStr longest) (ints ++ added) parts dcols 0 ty2) as (types & E3 & L3 & H3); [rewrite L2, L1; exact (sr_dates _ _ _ _ _ S)|exact (sr_len _ _ _ _ _ S)|].
  change (Z.of_nat 0) with 0 in E3. exists ty1, ty2, types. split; [reflexivity|]. split; [exact E2|]. split; [exact E3|]. split; [|intros ->; cbn in E3; congruence].
  split; [congruence|]. intros j LJ. destruct (nth_error types j) as [t|] eqn:ET; [|apply nth_error_None in ET; lia]. exists t. split; [reflexivity|].
  destruct (H1 j) as [P1 P2]. destruct (H2 j) as [Q1 Q2]. destruct (H3 j) as [R1 R2].
  assert (INW : forall i p, nth_error dcols i = Some j -> nth_error parts i = Some p -> whole_part p -> In j added).
  { intros i p D P W. pose proof (sr_place _ _ _ _ _ S i p P W) as D'. assert (i = j) by congruence. subst i. apply IA. exists p. split; assumption. }
  assert (SAME : forall i i' p p', nth_error dcols i = Some j -> nth_error dcols i' = Some j -> nth_error parts i = Some p -> nth_error parts i' = Some p' -> p = p').
  { intros i i' p p' D D' P P'. assert (i = i'). { apply (proj1 (NoDup_nth_error dcols) (sr_nodup _ _ _ _ _ S)); [apply nth_error_Some; congruence|congruence]. } congruence. }
  assert (GP : forall i p, nth_error parts i = Some p -> good_part p). { intros i p P. pose proof (sr_parts _ _ _ _ _ S) as F. rewrite Forall_forall in F. apply F. eapply nth_error_In. exact P. }
  assert (DATE : (exists m p, nth_error dcols m = Some j /\ nth_error parts (0 + m) = Some p /\ ~ In j (ints ++ added) /\ contains "SOD" (upper p) = false) <->
     (~ In j ints /\ exists i p, nth_error dcols i = Some j /\ nth_error parts i = Some p /\ ~ whole_part p /\ ~ ignoring_case "SOD" p)).
  { split.
    - intros (m & p & D & P & NI & C). rewrite in_app_iff in NI. split; [tauto|]. exists m, p. split; [exact D|]. split; [exact P|]. split.
      + intros W. apply NI. right. exact (INW m p D P W).
      + intros I. apply (part_sod p (GP m p P)) in I. congruence.
    - intros (NI & i & p & D & P & NW & NS). exists i, p. split; [exact D|]. split; [exact P|]. split.
      + rewrite in_app_iff. intros [I|I]; [contradiction|]. destruct (PL j I) as (p' & P' & W & D'). rewrite (SAME i j p p' D D' P P') in NW. contradiction.
      + apply not_true_is_false. intros C. apply NS. apply (part_sod p (GP i p P)). exact C. }
  assert (BASE : In j (ints ++ added) -> nth_error ty1 j = Some TInt) by (intros I; apply P1, I).
  assert (FLT : ~ In j (ints ++ added) -> nth_error ty1 j = Some TFloat). { intros N. rewrite (P2 N). apply nth_error_repeat. exact LJ. }
  split; [|split].
  - intros (NS & H). assert (IN : In j (ints ++ added)). { apply in_app_iff. destruct H as [I|(i & p & D & P & W)]; [left; exact I|right; exact (INW i p D P W)]. }
    assert (E : Some t = Some TInt); [|injection E as ->; reflexivity]. rewrite <- ET, R2, (Q2 NS); [exact (BASE IN)|]. rewrite DATE. intros (NI & i & p & D & P & NW & _).
    destruct H as [I|(i' & p' & D' & P' & W)]; [contradiction|]. rewrite (SAME i i' p p' D D' P P') in NW. contradiction.
  - intros H. assert (E : Some t = Some (TStr longest)); [|injection E as ->; reflexivity]. rewrite <- ET. destruct H as [I|H].
    + destruct (find_col j) as [(i & p & D & P)|X].
      * destruct (contains "SOD" (upper p)) eqn:C.
        -- rewrite R2; [exact (Q1 I)|]. intros (m & p' & D' & P' & _ & C'). cbn [Nat.add] in P'. rewrite (SAME m i p' p D' D P' P) in C'. congruence.
        -- destruct (in_dec Nat.eq_dec j (ints ++ added)) as [J|J].
           ++ rewrite R2; [exact (Q1 I)|]. intros (m & p' & _ & _ & NJ & _). contradiction.
           ++ apply R1. exists i, p. split; [exact D|]. split; [exact P|]. split; assumption.
      * rewrite R2; [exact (Q1 I)|]. intros (m & p & D & P & _). apply X. exists m, p. split; assumption.
    + apply R1, DATE, H.
  - intros NI NT. assert (E : Some t = Some TFloat); [|injection E as ->; reflexivity]. rewrite <- ET, R2; [|rewrite DATE; intros H; apply NT; right; exact H].
    assert (NS : ~ In j strs) by (intros I; apply NT; left; exact I). rewrite (Q2 NS). apply FLT. rewrite in_app_iff. intros [I|I]; apply NI; (split; [exact NS|]); [left; exact I|].
    right. destruct (PL j I) as (p & P & W & D). exists j, p. split; [exact D|]. split; assumption.
Qed.
Lemma cast_value types n j s c : types_ok n types -> (j < n)%nat -> val j s c -> exists t, nth_error types j = Some t /\ cast pf t s = Ok c.
Proof.
  intros [_ T] L H. destruct (T j L) as (t & E & T1 & T2 & T3). exists t. split; [exact E|]. destruct H as [(I & z & IZ & B & ->)|[(I & LE & ->)|(N1 & N2 & v & P & ->)]].
  - rewrite (T1 I). cbn [cast]. rewrite (py_int_integer _ _ IZ). cbn [bind]. assert (R : (- max_int64 - 1 <=? z) && (z <=? max_int64) = true) by (apply andb_true_iff; rewrite !Z.leb_le; unfold max_int64; lia). rewrite R. reflexivity.
  - rewrite (T2 I). cbn [cast]. rewrite firstn_all2; [reflexivity|]. unfold zlen in LE. lia.
  - rewrite (T3 N1 N2). cbn [cast]. rewrite P. reflexivity.
Qed.

Lemma with_spaces_glue (a s : str) r : with_spaces ((a ++ " "%char :: s) :: r) = with_spaces (a :: s :: r).
Proof. destruct r as [|b r]; cbn [with_spaces]; [reflexivity|]. rewrite <- app_assoc. reflexivity. Qed.
Lemma acc_texts u r : u = UYyddd \/ u = UDate \/ u = UTod -> forall a, acc (V:=V) pf u (Some (CS a)) r (Some (CS (with_spaces (a :: r)))).
Proof.
  intros U. induction r as [|s r IH]; intros a; [constructor|]. constructor; [exact U|]. rewrite <- with_spaces_glue. apply IH.
Qed.
Lemma acc_text u l o : u = UYyddd \/ u = UDate \/ u = UTod -> a_text l o -> acc (V:=V) pf u None l (option_map CS o).
Proof.
  intros U [|s r]; [constructor|]. apply (acc_first pf u s (CS s)); [destruct U as [->|[->| ->]]; reflexivity|]. apply (acc_texts u r U s).
Qed.
Lemma acc_integer u l o : u = UYear \/ u = USoy -> an_integer l o -> acc (V:=V) pf u None l (option_map CZ o).
Proof. intros U [|s z Z B]; [constructor|]. apply (acc_first pf u s (CZ z)); [destruct U as [->| ->]; exists z; split; [exact Z|reflexivity|exact Z|reflexivity]|constructor]. Qed.
Lemma acc_number l o : a_number pf toQ l o -> exists v, acc (V:=V) pf USod None l (option_map CF v) /\ match v, o with None, None => True | Some v, Some x => toQ v = Ok x | _, _ => False end.
Proof. intros [|s v x P Q]; [exists None; split; [constructor|exact I]|]. exists (Some v). split; [|exact Q]. apply (acc_first pf USod s (CF v)); [exists v; split; [exact P|reflexivity]|constructor]. Qed.
Lemma in_texts u row ps js ts m j p s : texts_for u row ps js ts -> nth_error js m = Some j -> nth_error ps m = Some p -> used_for p u -> nth_error row j = Some s -> In s ts.
Proof.
  intros T. revert m. induction T as [ps|p0 ps j0 js t ts U R T IH|p0 ps j0 js ts U T IH]; intros m A B C D; destruct m as [|m]; cbn in A, B; try discriminate A.
  - injection A as ->. rewrite R in D. injection D as ->. left. reflexivity.
  - right. exact (IH m A B C D).
  - injection B as ->. contradiction.
  - exact (IH m A B C D).
Qed.
Lemma an_integer_bound l o s z : an_integer l o -> In s l -> integer z s -> - 2 ^ 63 <= z < 2 ^ 63.
Proof.
  intros [|s0 z0 I B] J K; [destruct J|]. destruct J as [->|[]]. apply py_int_integer in I. apply py_int_integer in K. rewrite I in K. injection K as <-. exact B.
Qed.
Lemma whole_use p u : good_part p -> used_for p u -> (u = UYear \/ u = USoy -> whole_part p) /\ (u = USod -> ~ whole_part p /\ ignoring_case "SOD" p) /\ (u <> UYear -> u <> USoy -> u <> USod -> ~ whole_part p /\ ~ ignoring_case "SOD" p).
Proof.
  intros _ U. unfold whole_part. split; [|split].
  - intros [->| ->]; [left|right]; exact U.
  - intros ->. cbn in U. split; [|exact U]. unfold ignoring_case in *. rewrite U. intros [E|E]; discriminate E.
  - intros A B C. destruct u; try contradiction; cbn in U.
    + unfold ignoring_case in *. rewrite U. split; [intros [E|E]; discriminate E|intros E; discriminate E].
    + destruct U as (d & r & -> & _). split; [intros [E|E]|intros E]; exact (case_not_pct _ _ E eq_refl).
    + destruct U as (d & r & -> & _). split; [intros [E|E]|intros E]; exact (case_not_pct _ _ E eq_refl).
Qed.
(** The time computed for a row is the time of the row. *)
Lemma row_time_spec n types fmt row t : asks -> sound_request ints strs dcols parts n -> types_ok n types -> length row = n ->
  (forall j s, nth_error row j = Some s -> exists c, val j s c) -> row_instant pf toQ dcols parts fmt row t ->
  exists d, inputs pf row types parts 0 (map Z.of_nat dcols) [] = Ok d /\ row_time toQ d fmt = Ok t.
Proof.
  intros A S T LR VAL (ly & ls & ld & lx & la & lt & y & s & x & d & a & o & T1 & I1 & T2 & I2 & T3 & I3 & T4 & I4 & T5 & I5 & T6 & I6 & CV).
  destruct (acc_number _ _ I3) as (dv & A3 & ED).
  destruct (inputs_spec pf row types parts dcols 0 [] (fun u => match u with UYear => ly | USoy => ls | USod => ld | UYyddd => lx | UDate => la | UTod => lt end)
     (fun u => match u with UYear => option_map CZ y | USoy => option_map CZ s | USod => option_map CF dv | UYyddd => option_map CS x | UDate => option_map CS a | UTod => option_map CS o end)) as (dd & E & LK & KN).
  - exact (sr_parts _ _ _ _ _ S).
  - exact (sr_len _ _ _ _ _ S).
  - intros u. cbn [skipn]. destruct u; assumption.
  - intros u. cbn [lookup]. destruct u; [apply acc_integer; [tauto|exact I1]|apply acc_integer; [tauto|exact I2]|exact A3|apply acc_text; [tauto|exact I4]|apply acc_text; [tauto|exact I5]|apply acc_text; [tauto|exact I6]].
  - intros m j p u w D P U R. cbn [Nat.add] in P. assert (LJ : (j < n)%nat) by (rewrite <- LR; apply nth_error_Some; congruence).
    destruct T as [_ T]. destruct (T j LJ) as (ty & ET & TI & TT & TF). exists ty. split; [exact ET|]. destruct (VAL j w R) as (c & VC).
    assert (G : good_part p). { pose proof (sr_parts _ _ _ _ _ S) as F. rewrite Forall_forall in F. apply F. eapply nth_error_In. exact P. }
    destruct (whole_use p u G U) as (W1 & W2 & W3).
    assert (TXT : textc j -> exists n0, ty = TStr n0 /\ zlen w <= n0).
    { intros X. exists longest. split; [exact (TT X)|]. destruct VC as [(I & _)|[(_ & LE & _)|(_ & NT & _)]]; [|exact LE|contradiction].
      exfalso. specialize (TI I). rewrite (TT X) in TI. discriminate TI. }
    assert (IC : whole_part p -> intc j \/ textc j). { intros W. destruct (in_dec Nat.eq_dec j strs) as [J|J]; [right; left; exact J|]. left. split; [exact J|]. right. exists m, p. split; [exact D|]. split; assumption. }
    assert (NI : ~ whole_part p -> ~ In j ints) by (intros W; exact (sr_other _ _ _ _ _ S m p j P D W)).
    assert (SAME : forall i p', nth_error dcols i = Some j -> nth_error parts i = Some p' -> p' = p).
    { intros i p' D' P'. assert (i = m). { apply (proj1 (NoDup_nth_error dcols) (sr_nodup _ _ _ _ _ S)); [apply nth_error_Some; congruence|congruence]. } congruence. }
    destruct u.
    + split; [destruct (IC (W1 (or_introl eq_refl))) as [X|X]; [left; exact (TI X)|right; exact (TXT X)]|]. intros z Z. apply (an_integer_bound ly y w z I1); [|exact Z]. exact (in_texts _ _ _ _ _ m j p w T1 D P U R).
    + split; [destruct (IC (W1 (or_intror eq_refl))) as [X|X]; [left; exact (TI X)|right; exact (TXT X)]|]. intros z Z. apply (an_integer_bound ls s w z I2); [|exact Z]. exact (in_texts _ _ _ _ _ m j p w T2 D P U R).
    + destruct (W2 eq_refl) as (NW & SD). destruct (in_dec Nat.eq_dec j strs) as [J|J]; [right; apply TXT; left; exact J|]. left. apply TF.
      * intros (_ & [I|(i & p' & D' & P' & W)]); [exact (NI NW I)|]. rewrite (SAME i p' D' P') in W. contradiction.
      * intros [I|(_ & i & p' & D' & P' & _ & NS)]; [contradiction|]. rewrite (SAME i p' D' P') in NS. contradiction.
    + destruct W3 as (NW & NS); try discriminate. apply TXT. right. split; [exact (NI NW)|]. exists m, p. split; [exact D|]. split; [exact P|]. split; assumption.
    + destruct W3 as (NW & NS); try discriminate. apply TXT. right. split; [exact (NI NW)|]. exists m, p. split; [exact D|]. split; [exact P|]. split; assumption.
    + destruct W3 as (NW & NS); try discriminate. apply TXT. right. split; [exact (NI NW)|]. exists m, p. split; [exact D|]. split; [exact P|]. split; assumption.
  - intros k [].
  - exists dd. split; [exact E|]. unfold row_time.
    assert (KB : forallb (fun p : str * cell V => member (fst p) known_inputs) dd = true). { apply forallb_forall. intros [k v] I. cbn [fst]. apply member_spec, KN. exact (in_map fst _ _ I). }
    rewrite KB. cbn [negb]. pose proof (LK UYear) as L1. pose proof (LK USoy) as L2. pose proof (LK USod) as L3. pose proof (LK UYyddd) as L4. pose proof (LK UDate) as L5. pose proof (LK UTod) as L6.
    cbn [key_of] in L1, L2, L3, L4, L5, L6. rewrite L1, L2, L3, L4, L5, L6.
    destruct y as [y|], s as [s|]; destruct dv as [dv|], d as [d|]; try contradiction; destruct x as [x|], a as [a|], o as [o|]; cbn [option_map int_input bind]; try rewrite ED; cbn [bind]; exact CV.
Qed.

Lemma split_with_spaces : parts <> [] -> Forall good_part parts -> split " " (with_spaces parts) = parts.
Proof.
  intros N G. apply split_parts; [exact N|]. eapply Forall_impl; [|exact G]. intros p [W _]. exact W.
Qed.
Lemma named_read lines : asks -> named lines -> exists last r,
  rev (q_header q ++ map (fun i => strip (nth i lines [])) (seq 0 (q_hlines q))) = last :: r /\ names_of q (match rev (q_header q) with h :: _ => h | [] => last end) = names.
Proof.
  intros A [(H & m & l & M & L & NL)|(h & l & H & NL)]; destruct (as_plain _ _ _ _ _ A) as [C S].
  - rewrite H, M. cbn [app rev]. rewrite seq_S, map_app, rev_app_distr. cbn [map rev app Nat.add]. eexists. eexists. split; [reflexivity|].
    rewrite (nth_error_nth _ _ _ L). apply (names_read q names l C S NL).
  - rewrite H. rewrite rev_app_distr. cbn [rev app]. destruct (rev (map (fun i => strip (nth i lines [])) (seq 0 (q_hlines q)))) as [|last r] eqn:E.
    + cbn [app]. rewrite rev_app_distr. cbn [rev app]. eexists. eexists. split; [reflexivity|]. apply (names_read q names l C S NL).
    + cbn [app]. eexists. eexists. split; [reflexivity|]. rewrite rev_app_distr. cbn [rev app]. apply (names_read q names l C S NL).
Qed.
Lemma lstrip_head s c r : lstrip s = c :: r -> isspace c = false.
Proof. induction s as [|a s IH]; [discriminate|]. cbn [lstrip]. destruct (isspace a) eqn:E; [exact IH|]. intros X. injection X as <- _. exact E. Qed.
Lemma lstrip_last s : forall r c, lstrip s = r ++ [c] -> exists r', s = r' ++ [c].
Proof.
  intros r c E. destruct (lstrip_blank s) as (w & _ & X). exists (w ++ r). rewrite X, E, app_assoc. reflexivity.
Qed.
Lemma strip_stripped s : stripped s (strip s).
Proof.
  destruct (strip_split s) as (a & b & A & B & E). exists a, b. split; [exact E|]. split; [exact A|]. split; [exact B|]. unfold strip. split.
  - intros c r X. assert (Y : lstrip (rev (lstrip s)) = rev r ++ [c]). { rewrite <- (rev_involutive (lstrip (rev (lstrip s)))), X. reflexivity. }
    destruct (lstrip_last _ _ _ Y) as (r' & Z). assert (W : lstrip s = c :: rev r'). { rewrite <- (rev_involutive (lstrip s)), Z, rev_app_distr. reflexivity. }
    exact (lstrip_head _ _ _ W).
  - intros r c X. assert (Y : lstrip (rev (lstrip s)) = c :: rev r). { rewrite <- (rev_involutive (lstrip (rev (lstrip s)))), X, rev_app_distr. reflexivity. }
    exact (lstrip_head _ _ _ Y).
Qed.
Lemma first_lines_read lines : (q_hlines q <= length lines)%nat -> first_lines lines (map (fun i => strip (nth i lines [])) (seq 0 (q_hlines q))).
Proof.
  unfold first_lines. generalize (q_hlines q) as m. intros m L.
  assert (X : forall pre m ls, lines = pre ++ ls -> (m <= length ls)%nat -> Forall2 stripped (firstn m ls) (map (fun i => strip (nth i lines [])) (seq (length pre) m))).
  { intros pre m0. revert pre. induction m0 as [|m0 IH]; intros pre ls E LE; [constructor|]. destruct ls as [|l ls]; [cbn in LE; lia|]. cbn [firstn seq map]. constructor.
    - rewrite E, app_nth2, Nat.sub_diag by lia. apply strip_stripped.
    - specialize (IH (pre ++ [l]) ls). rewrite app_length in IH. cbn [length] in IH. rewrite Nat.add_1_r in IH. apply IH; [rewrite E, <- app_assoc; reflexivity|cbn in LE; lia]. }
  exact (X [] m lines eq_refl L).
Qed.
Lemma data_some rows ls : data_lines rows ls -> (2 <= length rows)%nat -> (1 <= length ls)%nat.
Proof. intros D. destruct D; cbn [length]; lia. Qed.
Notation row_ok := (row_ok pf q ints strs dcols parts names).
Notation good_request := (good_request q ints strs dcols parts names).
Lemma load_spec size lines rows : good_request -> 0 < size <= 2000000000 -> named lines ->
  data_lines rows (skipn (q_hlines q) lines) -> (2 <= length rows)%nat -> Forall row_ok rows ->
  (dcols <> [] -> (exists k, time_name names k) /\ Forall (fun row => exists t, row_instant pf toQ dcols parts (with_spaces parts) row t) rows) ->
  exists o hs added, load_ascii pf toQ q true size lines = Ok o /\ o_header o = q_header q ++ hs /\ first_lines lines hs /\
    o_int o = q_int q ++ map Z.of_nat added /\ (forall j, In j added <-> exists p, nth_error parts j = Some p /\ whole_part p) /\
    (forall j name, nth_error names j = Some name -> exists cells, lookup name (o_data o) = Some cells /\
       Forall2 (fun row c => exists s, nth_error row j = Some s /\ val j s c) rows cells) /\
    (dcols = [] -> map fst (o_data o) = names) /\
    (dcols <> [] -> exists k ts, time_name names k /\ map fst (o_data o) = names ++ [k] /\ lookup k (o_data o) = Some (map CT ts) /\
       Forall2 (row_instant pf toQ dcols parts (with_spaces parts)) rows ts).
Proof.
  intros (A & S & ND & N2) SZ NM D R2 RO DT. unfold load_ascii.
  assert (TF : test_file true size = true).
  { unfold test_file. cbn [negb]. destruct (Z.ltb_spec 2000000000 size); [lia|]. destruct (Z.eqb_spec size 0); [lia|reflexivity]. }
  rewrite TF. cbn [negb].
  destruct (types_spec _ A S) as (added & EA & IA & ty1 & ty2 & types & E1 & E2 & E3 & TO & TN). rewrite EA. cbn [bind].
  destruct (named_read lines A NM) as (last & r & ER & EN). rewrite ER, EN. change (match q_fmt q with Some f => Z.max (q_max q) (get_datetime_fmt_len f) | None => q_max q end) with longest. rewrite E1. cbn [bind]. rewrite E2. cbn [bind].
  assert (HL : (q_hlines q <= length lines)%nat). { pose proof (data_some _ _ D R2) as X. rewrite skipn_length in X. lia. }
  assert (GF : genfromtxt (match q_comments q with Some c => c | None => Some (s2l "#") end) (skipn (q_hlines q) lines) = Ok (Arr2 rows)).
  { rewrite (proj1 (as_plain _ _ _ _ _ A)). apply (table_2d (length names) rows _ D R2 N2). eapply Forall_impl; [|exact RO]. intros row [L _]. exact L. }
  rewrite GF. clear GF ER.
  assert (CELL : forall dk row i name, In row rows -> nth_error names i = Some name -> dk <> Some name -> exists c, row_cell pf toQ q types dk row (Z.of_nat i) name = Ok c /\ exists s, nth_error row i = Some s /\ val i s c).
  { intros dk row i name I E NE. rewrite Forall_forall in RO. destruct (RO row I) as [LR VR]. assert (LI : (i < length names)%nat) by (apply nth_error_Some; congruence).
    destruct (nth_error row i) as [s|] eqn:ES; [|apply nth_error_None in ES; lia]. destruct (VR i s ES) as (c & VC). exists c. split; [|exists s; split; [reflexivity|exact VC]].
    destruct (cast_value types (length names) i s c TO LI VC) as (ty & ET & EC).
    assert (X : (s <- getE row (Z.of_nat i) ;; t <- getE types (Z.of_nat i) ;; cast pf t s) = Ok c). { rewrite (getE_nat row i s ES). cbn [bind]. rewrite (getE_nat types i ty ET). cbn [bind]. exact EC. }
    unfold row_cell. destruct dk as [k|]; [|exact X]. destruct (q_fmt q); [|exact X]. rewrite str_eqb_neq by congruence. exact X. }
  assert (FIN : forall keys t', NoDup keys -> map fst t' = keys -> (forall i k, nth_error keys i = Some k -> exists cs, lookup k t' = Some cs /\ length cs = length rows) ->
      forallb (fun p : str * list (cell V) => match snd p with [] => false | _ => true end) t' = true).
  { intros keys t' NK K H. apply forallb_forall. intros [k l] I. cbn [snd]. assert (IK : In k keys) by (rewrite <- K; exact (in_map fst _ _ I)).
    destruct (In_nth_error _ _ IK) as (i & EI). destruct (H i k EI) as (cs & L & LL). rewrite (lookup_in_table k l t') in L; [|rewrite K; exact NK|exact I]. injection L as ->. destruct cs; [cbn in LL; lia|reflexivity]. }
  destruct (list_eq_dec Nat.eq_dec dcols []) as [DN|DN].
  - assert (QD : match q_dtcols q, q_fmt q with _ :: _, Some _ => true | _, _ => false end = false) by (rewrite (as_dates _ _ _ _ _ A), DN; reflexivity). rewrite QD. cbn [bind].
    rewrite app_nil_r, (uniq_nodup names [] ND) by (intros k _ []). rewrite <- (TN DN) in *.
    destruct (all_lines_spec (row_cell pf toQ q types None) (fun row i c => exists s, nth_error row i = Some s /\ val i s c) names ND rows (fun row i k I E => CELL None row i k I E ltac:(discriminate)) _ (start_keys names)) as (t' & -> & K & LK).
    assert (COL : forall i k, nth_error names i = Some k -> exists cs, lookup k t' = Some cs /\ Forall2 (fun row c => exists s, nth_error row i = Some s /\ val i s c) rows cs).
    { intros i k E. destruct (LK i k [] E) as (cs & L & F); [apply lookup_start; eapply nth_error_In; exact E|]. exists cs. split; assumption. }
    cbn [bind]. rewrite (FIN names t' ND K). 2:{ intros i k E. destruct (COL i k E) as (cs & L & F). exists cs. split; [exact L|]. symmetry. exact (F2_length _ _ _ F). }
    eexists. eexists. exists added. split; [reflexivity|]. cbn [o_header o_data o_int]. split; [reflexivity|]. split; [apply first_lines_read, HL|]. split; [reflexivity|]. split; [exact IA|]. split; [exact COL|]. split; [intros _; exact K|]. intros X. contradiction.
  - destruct (DT DN) as [(k0 & KF) IR]. assert (QF : q_fmt q = Some (with_spaces parts) /\ parts <> []) by (destruct (as_fmt _ _ _ _ _ A) as [(_ & _ & X)|X]; [contradiction|exact X]). destruct QF as [QF PN].
    assert (QD : match q_dtcols q, q_fmt q with _ :: _, Some _ => true | _, _ => false end = true) by (rewrite (as_dates _ _ _ _ _ A), QF; destruct dcols; [contradiction|reflexivity]). rewrite QD.
    destruct (free_key_spec dt_keys names) as (ka & k & kb & EK & FK & NK & FE). { destruct KF as (a & b & E & _ & NI). exists k0. split; [|exact NI]. change dt_keys with (map s2l ["datetime"; "DATETIME"; "DT"; "dt"]). rewrite E. apply in_elt. }
    rewrite FE. cbn [bind]. rewrite QF, (split_with_spaces PN (sr_parts _ _ _ _ _ S)). rewrite E3. cbn [bind].
    assert (NDK : NoDup (names ++ [k])). { apply NoDup_app_intro_one; assumption. }
    rewrite (uniq_nodup (names ++ [k]) [] NDK) by (intros x _ []).
    destruct (all_lines_spec (row_cell pf toQ q types (Some k)) (fun row i c => ((i < length names)%nat -> exists s, nth_error row i = Some s /\ val i s c) /\ (i = length names -> exists t, c = CT t /\ row_instant pf toQ dcols parts (with_spaces parts) row t)) (names ++ [k]) NDK rows) with (t := map (fun k => (k, @nil (cell V))) (names ++ [k])) as (t' & E & K & LK).
    { intros row i name I E. destruct (Nat.lt_ge_cases i (length names)) as [LT|GE].
      - rewrite nth_error_app1 in E by exact LT. destruct (CELL (Some k) row i name I E) as (c & EC & X); [intros Y; injection Y as ->; apply NK; eapply nth_error_In; exact E|]. exists c. split; [exact EC|]. split; [intros _; exact X|lia].
      - rewrite nth_error_app2 in E by exact GE. destruct (i - length names)%nat as [|m] eqn:EM; [|destruct m; discriminate E]. cbn in E. injection E as <-.
        rewrite Forall_forall in IR. destruct (IR row I) as (t & T). rewrite Forall_forall in RO. destruct (RO row I) as [LR VR]. destruct (row_time_spec _ types (with_spaces parts) row t A S TO LR VR T) as (dd & ED & ET).
        exists (CT t). split; [|split; [lia|intros _; exists t; split; [reflexivity|exact T]]]. unfold row_cell. rewrite QF, str_eqb_refl, (split_with_spaces PN (sr_parts _ _ _ _ _ S)), (as_dates _ _ _ _ _ A), ED. cbn [bind]. rewrite ET. reflexivity. }
    { apply start_keys. }
    change (table V) with (list (str * list (cell V))) in *. rewrite E. cbn [bind].
    assert (COL : forall i x, nth_error (names ++ [k]) i = Some x -> exists cs, lookup x t' = Some cs /\ Forall2 (fun row c => ((i < length names)%nat -> exists s, nth_error row i = Some s /\ val i s c) /\ (i = length names -> exists t, c = CT t /\ row_instant pf toQ dcols parts (with_spaces parts) row t)) rows cs).
    { intros i x EX. destruct (LK i x [] EX) as (cs & L & F); [apply lookup_start; eapply nth_error_In; exact EX|]. exists cs. split; assumption. }
    rewrite (FIN (names ++ [k]) t' NDK K). 2:{ intros i x EX. destruct (COL i x EX) as (cs & L & F). exists cs. split; [exact L|]. symmetry. exact (F2_length _ _ _ F). }
    eexists. eexists. exists added. split; [reflexivity|]. cbn [o_header o_data o_int]. split; [reflexivity|]. split; [apply first_lines_read, HL|]. split; [reflexivity|]. split; [exact IA|]. split; [|split; [intros X; contradiction|]].
    + intros i x EX. assert (LI : (i < length names)%nat) by (apply nth_error_Some; congruence). destruct (COL i x) as (cs & L & F); [rewrite nth_error_app1 by exact LI; exact EX|].
      exists cs. split; [exact L|]. eapply F2_impl; [|exact F]. intros row c [X _]. exact (X LI).
    + intros _. destruct (COL (length names) k) as (cs & L & F); [rewrite nth_error_app2, Nat.sub_diag by lia; reflexivity|].
      assert (TS : exists ts, cs = map CT ts /\ Forall2 (row_instant pf toQ dcols parts (with_spaces parts)) rows ts).
      { clear - F. induction F as [|row c rows cs [_ H] F IH]; [exists []; split; [reflexivity|constructor]|]. destruct IH as (ts & -> & G). destruct (H eq_refl) as (t & -> & T). exists (t :: ts). split; [reflexivity|constructor; assumption]. }
      destruct TS as (ts & -> & G). exists k, ts. split; [exists ka, kb; split; [exact EK|split; assumption]|]. split; [exact K|]. split; [exact L|exact G].
Qed.
End B.
