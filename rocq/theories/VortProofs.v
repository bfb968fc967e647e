(** Reading vorticity files block by block. *)
From Coq Require Import String Ascii ZArith List Bool Lia.
From Verif Require Import PyBase PyString TimeModel TimeSpec TimeProofs TimeProofs2 TimeProofs3 TimeProofs4 FilesModel FilesProofs TextSpec TextProofs SmagModel SmagSpec SmagProofs LoadProofs
  VortModel VortSpec.
Import ListNotations.
Open Scope string_scope.
Open Scope list_scope.
Open Scope Z_scope.

(** ** The date *)
Lemma short_cases v s : short v s -> (s = [dig v] /\ 0 <= v <= 9) \/ (s = pad2 v /\ 0 <= v <= 99).
Proof.
  intros [W L]. inversion W as [c n D|s' c v' n W' D]; subst.
  - left. pose proof D as [R _]. apply digit_is_dig in D. subst c. split; [reflexivity|exact R].
  - right. inversion W' as [c0 n0 D0|s0 c0 v0 n0 W0 D0]; subst.
    + apply date2_pad2. exists c0, c, v', n. repeat split; auto; apply D0 || apply D.
    + rewrite !app_length in L. cbn [length] in L. destruct s0; [inversion W0; destruct s; discriminate|cbn [length] in L; lia].
Qed.
Lemma cand_m1 n r : 1 <= n <= 9 -> hd_error (candidates Dm ([dig n] ++ " "%char :: r)) = Some ([dig n], " "%char :: r).
Proof. intros H. pattern n. apply (to_nat_case 1 10); [|lia]. clear n H. intros n H. nat_cases n H. Qed.
Lemma d_end1 n : 1 <= n <= 9 -> hd_error (matches [TDir Dd] [dig n]) = Some ([(Dd, [dig n])], []).
Proof. intros H. pattern n. apply (to_nat_case 1 10); [|lia]. clear n H. intros n H. nat_cases n H. Qed.
Lemma int_sp_1 n : 0 <= n <= 9 -> int_sp [dig n] = n.
Proof. intros H. pattern n. apply (to_nat_case 0 10); [|lia]. clear n H. intros n H. nat_cases n H. Qed.
Lemma short_m v s r : short v s -> 1 <= v <= 12 -> hd_error (candidates Dm (s ++ " "%char :: r)) = Some (s, " "%char :: r).
Proof. intros S R. destruct (short_cases _ _ S) as [[-> ?]|[-> ?]]; [apply cand_m1; lia|apply cand_m; exact R]. Qed.
Lemma short_d v s : short v s -> 1 <= v <= 31 -> hd_error (matches [TDir Dd] s) = Some ([(Dd, s)], []).
Proof. intros S R. destruct (short_cases _ _ S) as [[-> ?]|[-> ?]]; [apply d_end1; lia|apply matches_d_end; exact R]. Qed.
Lemma short_int v s : short v s -> int_sp s = v.
Proof. intros S. destruct (short_cases _ _ S) as [[-> ?]|[-> ?]]; [apply int_sp_1; lia|apply int_sp_pad2; lia]. Qed.
Lemma written_first v s : written v s -> exists c r, s = c :: r /\ isspace c = false.
Proof.
  intros W. apply written_spec in W. destruct W as (_ & N & D & _). destruct s as [|c r]; [contradiction|]. exists c, r. split; [reflexivity|].
  cbn [forallb] in D. apply andb_true_iff in D. destruct D as [D _]. unfold isspace. unfold isdigit, TimeModel.between in D. apply andb_true_iff in D. rewrite !Z.leb_le in D.
  destruct (Z.eqb_spec (code c) 32); [lia|]. destruct (Z.leb_spec (code c) 13); [lia|]. destruct (Z.leb_spec (code c) 31); [lia|].
  rewrite !andb_false_r. reflexivity.
Qed.
Lemma date4_written s y : date4 s y -> written y s.
Proof.
  intros (c1 & c2 & c3 & c4 & a & b & c & d & -> & A & B & C & D & ->).
  replace (1000 * a + 100 * b + 10 * c + d) with (10 * (10 * (10 * a + b) + c) + d) by lia.
  change [c1; c2; c3; c4] with ((([c1] ++ [c2]) ++ [c3]) ++ [c4]). repeat constructor; assumption || apply A || apply B || apply C || apply D.
Qed.
Definition vd_toks := [TDir DY; TSpace; TDir Dm; TSpace; TDir Dd].
Lemma vd_parse : parse_fmt "%Y %m %d" = Some vd_toks. Proof. reflexivity. Qed.
Lemma date_read wy wm wd y m d n : date4 wy y -> short m wm -> short d wd -> calendar_day y m d n ->
  sp_time (strptime (wy ++ " "%char :: wm ++ " "%char :: wd) "%Y %m %d") = Ok (day_us n).
Proof.
  intros Y M D C. apply calendar_day_spec in C. destruct C as (Hy & Hm & Hd & ->). pose proof (month_len_31 y m) as D31.
  assert (K : mk_datetime y m d 0 0 0 0 = Ok (ordinal y m d * us_day)).
  { rewrite mk_datetime_ok by lia. f_equal. lia. }
  rewrite (strptime_hd _ _ _ vd_parse). unfold vd_toks. rewrite (matches_Y4 wy y) by exact Y. rewrite hd_map.
  destruct (written_first _ _ (proj1 M)) as (cm & rm & EM & SM). destruct (written_first _ _ (proj1 D)) as (cd & rd & ED & SD).
  assert (H1 : hd_error (matches [TSpace; TDir Dm; TSpace; TDir Dd] (" "%char :: wm ++ " "%char :: wd)) = Some ([(Dm, wm); (Dd, wd)], [])).
  { rewrite EM. cbn [app]. apply hd_space; [exact SM|]. change (cm :: rm ++ " "%char :: wd) with ((cm :: rm) ++ " "%char :: wd). rewrite <- EM.
    rewrite (hd_dir Dm _ wm (" "%char :: wd) ([(Dd, wd)], [])); [reflexivity|apply (short_m m); assumption|].
    rewrite ED. apply hd_space; [exact SD|]. rewrite <- ED. apply (short_d d); [exact D|lia]. }
  rewrite H1. cbn [option_map fst snd]. unfold build. cbn [fold_left set_field fst snd fY fm fd fj fH fM fS ff].
  rewrite (int_sp_4 wy y Y), (short_int m wm M), (short_int d wd D), K.
  replace ((1 <=? y) && (y <=? 9999)) with true by (symmetry; apply andb_true_iff; rewrite !Z.leb_le; lia). exact K.
Qed.
Lemma last_us n : calendar_day 9999 12 31 n -> day_us (n + 1) = max_us.
Proof. intros C. apply calendar_day_spec in C. destruct C as (_ & _ & _ & ->). vm_compute. reflexivity. Qed.

(** ** Appending to columns *)
Section A.
Context {V : Type}.
Definition sel (k : str) (kcs : list (str * cell V)) : list (cell V) := map snd (filter (fun p => str_eqb k (fst p)) kcs).
Lemma append_spec k c (t : table V) : In k (map fst t) -> exists t', append k c t = Ok t' /\ map fst t' = map fst t /\
  forall k' l, lookup k' t = Some l -> lookup k' t' = Some (l ++ if str_eqb k' k then [c] else []).
Proof.
  induction t as [|[k0 l0] t IH]; intros I; [destruct I|]. cbn [append map fst lookup].
  destruct (str_eqb k k0) eqn:E.
  - apply str_eqb_spec in E. subst k0. eexists. split; [reflexivity|]. split; [reflexivity|]. intros k' l H. cbn [lookup]. destruct (str_eqb k' k) eqn:E'; [injection H as <-; reflexivity|].
    rewrite H, app_nil_r. reflexivity.
  - destruct I as [I|I]; [cbn [fst] in I; subst k0; rewrite (proj2 (str_eqb_spec k k) eq_refl) in E; discriminate|].
    destruct (IH I) as (t' & -> & F & L). cbn [bind]. eexists. split; [reflexivity|]. cbn [map fst]. rewrite F. split; [reflexivity|].
    intros k' l H. cbn [lookup]. destruct (str_eqb k' k0) eqn:E'; [|exact (L _ _ H)]. injection H as <-.
    apply str_eqb_spec in E'. subst k0. destruct (str_eqb k' k) eqn:E2; [|rewrite app_nil_r; reflexivity].
    apply str_eqb_spec in E2. subst k'. rewrite (proj2 (str_eqb_spec k k) eq_refl) in E. discriminate.
Qed.
Lemma appends_spec kcs : forall t : table V, Forall (fun p => In (fst p) (map fst t)) kcs -> exists t', appends kcs t = Ok t' /\ map fst t' = map fst t /\
  forall k l, lookup k t = Some l -> lookup k t' = Some (l ++ sel k kcs).
Proof.
  induction kcs as [|[k c] kcs IH]; intros t F; cbn [appends].
  - exists t. split; [reflexivity|]. split; [reflexivity|]. intros k l H. unfold sel. cbn [filter map]. rewrite app_nil_r. exact H.
  - inversion F as [|? ? I F']; subst. cbn [fst] in I. destruct (append_spec k c t I) as (t1 & -> & M1 & L1). cbn [bind].
    destruct (IH t1) as (t2 & E2 & M2 & L2); [rewrite M1; exact F'|]. exists t2. split; [exact E2|]. split; [congruence|].
    intros k' l H. rewrite (L2 _ _ (L1 _ _ H)). unfold sel. cbn [filter fst]. destruct (str_eqb k' k); cbn [map snd]; rewrite <- ?app_assoc; [reflexivity|]. cbn [app]. reflexivity.
Qed.
Lemma appends_app a b (t : table V) : appends (a ++ b) t = (t' <- appends a t ;; appends b t').
Proof. revert t. induction a as [|[k c] a IH]; intros t; [reflexivity|]. cbn [app appends]. destruct (append k c t); cbn [bind]; [apply IH|reflexivity]. Qed.
End A.
(** ** One entry *)
Section B.
Context {V : Type} (pf : str -> res V) (secs : V -> res Z) (sa : bool).
Notation wanted := (vort_keys sa).
Definition read_as (p : str * str) (c : str * cell V) : Prop := fst c = fst p /\ exists v, number pf v (snd p) /\ snd c = CF v.
Lemma save_spec kws : (forall k w, In (k, w) kws -> member k wanted = true -> exists v, number pf v w) ->
  exists kcs, (forall t, save_keys pf wanted kws t = appends kcs t) /\ Forall2 read_as (filter (fun p => member (fst p) wanted) kws) kcs.
Proof.
  induction kws as [|[k w] kws IH]; intros R.
  - exists []. split; [reflexivity|constructor].
  - destruct IH as (kcs & E & F); [intros k' w' I; apply R; right; exact I|]. cbn [save_keys filter fst].
    destruct (member k wanted) eqn:M.
    + destruct (R k w (or_introl eq_refl) M) as [v N]. exists ((k, CF v) :: kcs). split.
      * intros t. rewrite N. cbn [bind appends]. destruct (append k (CF v) t); cbn [bind]; [apply E|reflexivity].
      * constructor; [|exact F]. split; [reflexivity|]. exists v. split; [exact N|reflexivity].
    + exists kcs. split; [exact E|exact F].
Qed.
Lemma names_wanted k : In k (names1 ++ names2 ++ names3) -> member (s2l k) wanted = true -> wanted_column sa k.
Proof.
  intros I M. unfold wanted_column. cbn [app names1 names2 names3 In] in I.
  destruct sa; repeat (destruct I as [<-|I]); try destruct I; try (exfalso; revert M; vm_compute; discriminate);
    first [left; cbn; tauto|right; split; [reflexivity|split; [cbn; tauto|split; discriminate]]].
Qed.
Lemma wanted_in k : wanted_column sa k -> In (s2l k) wanted.
Proof.
  intros [I|(-> & I & N1 & N2)].
  - apply member_spec. cbn [In] in I. repeat (destruct I as [<-|I]); try destruct I; destruct sa; reflexivity.
  - apply member_spec. cbn [app names1 names2 names3 In] in I. repeat (destruct I as [<-|I]); try destruct I; try reflexivity; contradiction.
Qed.
Definition line_items (names : list string) (ws : list str) : list (str * str) := combine (map s2l names) ws.
Lemma line_items_in names ws k w : In (k, w) (line_items names ws) -> exists k', k = s2l k' /\ In (k', w) (combine names ws) /\ In k' names.
Proof.
  revert ws. induction names as [|n names IH]; intros [|x ws] I; try destruct I.
  - injection H as <- <-. exists n. split; [reflexivity|]. split; [left; reflexivity|left; reflexivity].
  - destruct (IH ws H) as (k' & -> & I1 & I2). exists k'. split; [reflexivity|]. split; right; assumption.
Qed.
Definition all_items (e : vline) : list (str * str) := line_items names1 (e1 e) ++ line_items names2 (e2 e) ++ line_items names3 (e3 e).
Lemma entry_spec e lines : written_entry pf sa e lines ->
  exists kcs, (forall rest t, entry_lines pf wanted bkeys (lines ++ rest) t = (t' <- appends kcs t ;; Ok (t', rest))) /\
    Forall2 read_as (filter (fun p => member (fst p) wanted) (all_items e)) kcs.
Proof.
  intros ((l1 & l2 & l3 & -> & S1 & S2 & S3) & L1 & L2 & L3 & R).
  assert (G : forall names ws, (forall k w, In (k, w) (combine names ws) -> In (k, w) (items e)) -> incl names (names1 ++ names2 ++ names3) ->
    exists kcs, (forall t, save_keys pf wanted (line_items names ws) t = appends kcs t) /\ Forall2 read_as (filter (fun p => member (fst p) wanted) (line_items names ws)) kcs).
  { intros names ws I N. apply save_spec. intros k w K M. destruct (line_items_in _ _ _ _ K) as (k' & -> & K1 & K2). apply (R k' w (I _ _ K1)).
    apply names_wanted; [exact (N _ K2)|exact M]. }
  destruct (G names1 (e1 e)) as (c1 & E1 & F1); [intros; unfold items; apply in_or_app; left; assumption|intros x I; apply in_or_app; left; exact I|].
  destruct (G names2 (e2 e)) as (c2 & E2 & F2); [intros; unfold items; apply in_or_app; right; apply in_or_app; left; assumption|intros x I; apply in_or_app; right; apply in_or_app; left; exact I|].
  destruct (G names3 (e3 e)) as (c3 & E3 & F3); [intros; unfold items; apply in_or_app; right; apply in_or_app; right; assumption|intros x I; apply in_or_app; right; apply in_or_app; right; exact I|].
  exists (c1 ++ c2 ++ c3). split.
  - intros rest t. change bkeys with [map s2l names1; map s2l names2; map s2l names3]. cbn [app entry_lines tl].
    rewrite (words_spaced _ _ S1), (words_spaced _ _ S2), (words_spaced _ _ S3), L1, L2, L3, !map_length, !Nat.eqb_refl. cbn [negb].
    fold (line_items names1 (e1 e)) (line_items names2 (e2 e)) (line_items names3 (e3 e)). rewrite !appends_app, E1.
    destruct (appends c1 t) as [t1|]; cbn [bind]; [|reflexivity]. rewrite E2, appends_app. destruct (appends c2 t1) as [t2|]; cbn [bind]; [|reflexivity]. rewrite E3. reflexivity.
  - unfold all_items. rewrite !filter_app. apply Forall2_app; [exact F1|]. apply Forall2_app; assumption.
Qed.
(** What is in the columns. *)
Definition holds (recs : list (vblock V * vline)) (t : table V) : Prop :=
  map fst t = wanted /\ forall k, wanted_column sa k -> exists cells, lookup (s2l k) t = Some cells /\ Forall2 (fun p c => vvalue pf secs k (fst p) (snd p) c) recs cells.
Definition stamp_of (b : vblock V) (st : stamp) : Prop :=
  s_yy st = vb_year b /\ s_mm st = vb_mon b /\ s_dd st = vb_day b /\ s_hh st = vb_hour b /\ vinstant secs b (s_time st).
Definition stamp_cells (st : @stamp V) : list (str * cell V) :=
  [(s2l "YEAR", CZ (s_yy st)); (s2l "MONTH", CZ (s_mm st)); (s2l "DAY", CZ (s_dd st)); (s2l "UTH", CF (s_hh st)); (s2l "DATETIME", CT (s_time st))].
Lemma sel_read k l kcs : Forall2 read_as l kcs ->
  Forall2 (fun w c => exists v, number pf v w /\ c = CF v) (map snd (filter (fun p => str_eqb k (fst p)) l)) (sel k kcs).
Proof.
  induction 1 as [|[k0 w] [k1 c] l kcs [E (v & N & C)] F IH]; [constructor|]. cbn [fst snd] in *. subst k1 c. unfold sel in *. cbn [filter fst].
  destruct (str_eqb k k0); [|exact IH]. cbn [map snd]. constructor; [|exact IH]. exists v. split; [exact N|reflexivity].
Qed.
Lemma keys_in st e kcs : Forall2 read_as (filter (fun p => member (fst p) wanted) (all_items e)) kcs ->
  Forall (fun p => In (fst p) wanted) (stamp_cells st ++ kcs).
Proof.
  intros F. apply Forall_app. split.
  - repeat constructor; cbn [fst]; apply member_spec; destruct sa; reflexivity.
  - remember (filter _ _) as l eqn:E. assert (G : Forall (fun p : str * str => In (fst p) wanted) l).
    { subst l. apply Forall_forall. intros p I. apply filter_In in I. apply member_spec, I. }
    clear E. induction F as [|p c l kcs [E _] F IH]; [constructor|]. inversion G; subst. constructor; [rewrite E; assumption|apply IH; assumption].
Qed.
Lemma one_cell b st e lines kcs k : stamp_of b st -> written_entry pf sa e lines ->
  Forall2 read_as (filter (fun p => member (fst p) wanted) (all_items e)) kcs -> wanted_column sa k ->
  exists c, sel (s2l k) (stamp_cells st ++ kcs) = [c] /\ vvalue pf secs k b e c.
Proof.
  intros (Y & M & D & H & I) (_ & L1 & L2 & L3 & _) F K.
  apply (sel_read (s2l k)) in F.
  assert (A : sel (s2l k) (stamp_cells st ++ kcs) = sel (s2l k) (stamp_cells st) ++ sel (s2l k) kcs) by (unfold sel; rewrite filter_app, map_app; reflexivity).
  rewrite A. clear A. set (cs := sel (s2l k) kcs) in *. clearbody cs.
  assert (G : forall w, In (k, w) (items e) -> sel (s2l k) (stamp_cells st) = [] -> 
    map snd (filter (fun p => str_eqb (s2l k) (fst p)) (filter (fun p => member (fst p) wanted) (all_items e))) = [w] ->
    exists c, sel (s2l k) (stamp_cells st) ++ cs = [c] /\ vvalue pf secs k b e c).
  { intros w J -> E. rewrite E in F. inversion F as [|? c ? ? (v & N & C) F']; subst. inversion F'; subst. exists (CF v). split; [reflexivity|].
    unfold vvalue. do 5 right. exists w, v. split; [exact J|]. split; [exact N|reflexivity]. }
  destruct e as [a1 a2 a3]. cbn [e1 e2 e3] in L1, L2, L3.
  do 8 (destruct a1 as [|? a1]; try discriminate L1). do 12 (destruct a2 as [|? a2]; try discriminate L2). do 12 (destruct a3 as [|? a3]; try discriminate L3). clear L1 L2 L3.
  assert (K' : In k ["YEAR"; "MONTH"; "DAY"; "UTH"; "DATETIME"] \/ In k (names1 ++ names2 ++ names3) /\ wanted_column sa k).
  { pose proof K as K2. destruct K as [K|(_ & K & _)]; [|right; split; assumption]. cbn [In] in K |- *.
    repeat (destruct K as [<-|K]); try destruct K; try (left; tauto); (right; split; [cbn; tauto|exact K2]). }
  clear K. destruct K' as [K|[K W]].
  - clear G. cbn [In] in K. repeat (destruct K as [<-|K]); try destruct K.
    all: match type of F with Forall2 _ ?l _ => replace l with (@nil str) in F by (symmetry; destruct sa; vm_compute; reflexivity) end; apply F2_length in F; destruct cs; [|discriminate F]; clear F; unfold vvalue; eexists; (split; [reflexivity|]).
    + left. split; [reflexivity|]. rewrite Y. reflexivity.
    + right. left. split; [reflexivity|]. rewrite M. reflexivity.
    + do 2 right. left. split; [reflexivity|]. rewrite D. reflexivity.
    + do 3 right. left. split; [reflexivity|]. rewrite H. reflexivity.
    + do 4 right. left. split; [reflexivity|]. eexists. split; [exact I|reflexivity].
  - clear F. assert (W' : member (s2l k) wanted = true) by (apply member_spec, wanted_in, W). clear W I Y M D H.
    cbn [app names1 names2 names3 In] in K. destruct sa; repeat (destruct K as [<-|K]); try destruct K.
    all: try (exfalso; revert W'; vm_compute; discriminate); clear W'; (eapply G; [|reflexivity|vm_compute; reflexivity]); unfold items; cbn [combine names1 names2 names3 app e1 e2 e3 In]; repeat (first [left; reflexivity|right]).
Qed.

Lemma entry_step recs t b st e lines : holds recs t -> stamp_of b st -> written_entry pf sa e lines ->
  exists t', (forall n rest, entries pf wanted (S n) st (lines ++ rest) t = entries pf wanted n st rest t') /\ holds (recs ++ [(b, e)]) t'.
Proof.
  intros [HK HC] ST W. destruct (entry_spec e lines W) as (kcs & E & F).
  destruct (appends_spec (stamp_cells st ++ kcs) t) as (t' & A & MK & L); [rewrite HK; apply (keys_in st e kcs F)|].
  exists t'. split.
  - intros n rest. cbn [entries]. fold (stamp_cells st). rewrite appends_app in A. destruct (appends (stamp_cells st) t) as [t1|]; cbn [bind] in A |- *; [|discriminate A].
    rewrite E, A. reflexivity.
  - split; [congruence|]. intros k K. destruct (HC k K) as (cells & LK & F2). destruct (one_cell b st e lines kcs k ST W F K) as (c & S & VV).
    exists (cells ++ [c]). rewrite (L _ _ LK), S. split; [reflexivity|]. apply Forall2_app; [exact F2|]. constructor; [exact VV|constructor].
Qed.
Lemma entries_step b st es els : stamp_of b st -> Forall2 (written_entry pf sa) es els -> forall recs t, holds recs t ->
  exists t', (forall n rest, entries pf wanted (length es + n) st (concat els ++ rest) t = entries pf wanted n st rest t') /\ holds (recs ++ map (fun e => (b, e)) es) t'.
Proof.
  intros ST. induction 1 as [|e ls es els W F IH]; intros recs t H.
  - exists t. split; [reflexivity|]. cbn [map]. rewrite app_nil_r. exact H.
  - cbn [concat map length]. destruct (entry_step recs t b st e ls H ST W) as (t1 & E1 & H1).
    destruct (IH _ _ H1) as (t2 & E2 & H2). exists t2. split.
    + intros n rest. rewrite <- app_assoc. cbn [Nat.add]. rewrite E1. apply E2.
    + rewrite <- app_assoc in H2. exact H2.
Qed.
Lemma vdate_spec b dl t : written_vdate pf b dl -> vinstant secs b t -> exists st, vdate_line pf secs (words [] dl) = Ok st /\ stamp_of b st.
Proof.
  intros (wy & wm & wd & wh & S & Y & M & D & H) I. rewrite (words_spaced _ _ S). cbn [vdate_line].
  rewrite (py_int_integer (vb_year b) wy) by (left; apply date4_written; exact Y). rewrite (py_int_integer (vb_mon b) wm) by (left; apply M). rewrite (py_int_integer (vb_day b) wd) by (left; apply D).
  cbn [bind]. rewrite H. cbn [bind]. pose proof I as (n & s & la & C & E & T & T0 & CL & TL). rewrite (date_read wy wm wd _ _ _ n Y M D C). cbn [bind]. rewrite E. cbn [bind].
  replace (s * 1000000) with (sec_us s) by reflexivity. unfold add_us. rewrite <- T, <- (last_us la CL). rewrite (proj2 (Z.leb_le 0 t)), (proj2 (Z.ltb_lt _ _)) by assumption. cbn [andb bind].
  eexists. split; [reflexivity|]. repeat split; try reflexivity. exact I.
Qed.
(** A block up to its entries. *)
Lemma block_head b n dl cl t : written_vdate pf b dl -> vinstant secs b t -> written_count n cl ->
  exists st, stamp_of b st /\ forall f tb rest, vort_loop pf secs wanted (S (S f)) Date (dl :: cl :: rest) tb = vort_loop pf secs wanted f (Entries st n) rest tb.
Proof.
  intros D I (w & S & N). destruct (vdate_spec _ _ _ D I) as (st & E & ST). exists st. split; [exact ST|]. intros f tb rest. cbn [vort_loop]. rewrite E. cbn [bind vort_loop].
  rewrite (words_spaced _ _ S). cbn [count_line]. rewrite (py_int_integer _ _ N). reflexivity.
Qed.
Lemma vblock_step b lines recs t : whole_vblock pf secs sa b lines -> holds recs t ->
  exists t', (forall rest f, vort_loop pf secs wanted (3 + f) Date (lines ++ rest) t = vort_loop pf secs wanted f Date rest t') /\ holds (recs ++ map (fun e => (b, e)) (vb_ent b)) t'.
Proof.
  intros (dl & cl & els & -> & D & (i & I) & C & F) H. destruct (block_head b _ dl cl i D I C) as (st & ST & E).
  destruct (entries_step b st _ _ ST F _ _ H) as (t' & E' & H'). exists t'. split; [|exact H']. intros rest f. cbn [app]. change (3 + f)%nat with (S (S (1 + f))). rewrite E.
  assert (EN : entries pf wanted (Z.to_nat (zlen (vb_ent b))) st (concat els ++ rest) t = Ok (t', rest)).
  { unfold zlen. rewrite Nat2Z.id, <- (Nat.add_0_r (length (vb_ent b))), E'. reflexivity. }
  destruct (concat els ++ rest) as [|l0 r0] eqn:EQ.
  - apply app_eq_nil in EQ. destruct EQ as [EQ ->]. cbn [vort_loop]. destruct f; cbn [vort_loop]; f_equal.
    all: destruct (vb_ent b) as [|e es]; [change (Z.to_nat (zlen (@nil vline))) with 0%nat in EN; cbn [entries] in EN; injection EN as ->; reflexivity|]; exfalso; inversion F as [|? l ? ? ((l1 & l2 & l3 & -> & _) & _)]; subst; discriminate EQ.
  - cbn [Nat.add vort_loop]. rewrite EN. reflexivity.
Qed.
Lemma vblocks_step bs liness : Forall2 (whole_vblock pf secs sa) bs liness -> forall recs t, holds recs t ->
  exists t', (forall rest f, vort_loop pf secs wanted (3 * length bs + f) Date (concat liness ++ rest) t = vort_loop pf secs wanted f Date rest t') /\ holds (recs ++ entries_of bs) t'.
Proof.
  induction 1 as [|b ls bs lss W F IH]; intros recs t H.
  - exists t. unfold entries_of. cbn [flat_map]. rewrite app_nil_r. split; [reflexivity|exact H].
  - destruct (vblock_step b ls recs t W H) as (t1 & E1 & H1). destruct (IH _ _ H1) as (t2 & E2 & H2). exists t2. split.
    + intros rest f. cbn [concat length]. rewrite <- app_assoc. replace (3 * S (length bs) + f)%nat with (3 + (3 * length bs + f))%nat by lia. rewrite E1. apply E2.
    + unfold entries_of in *. cbn [flat_map]. rewrite app_assoc. exact H2.
Qed.
(** The file. *)
Lemma header_skip hs body : Forall vheader hs -> skip_header (hs ++ body) = skip_header body.
Proof.
  induction 1 as [|h hs (ws & S) F IH]; [reflexivity|]. cbn [app skip_header]. rewrite (words_spaced _ _ S).
  replace (str_eqb (s2l "#") (s2l "#")) with true by reflexivity. exact IH.
Qed.
Lemma no_header b dl rest : written_vdate pf b dl -> skip_header (dl :: rest) = dl :: rest.
Proof.
  intros (wy & wm & wd & wh & S & (c1 & c2 & c3 & c4 & _ & _ & _ & _ & -> & _) & _). cbn [skip_header]. rewrite (words_spaced _ _ S).
  destruct (str_eqb [c1; c2; c3; c4] (s2l "#")) eqn:E; [|reflexivity]. apply str_eqb_spec in E. discriminate E.
Qed.
Lemma block_lines bs liness : Forall2 (whole_vblock pf secs sa) bs liness -> (2 * length bs <= length (concat liness))%nat.
Proof.
  induction 1 as [|b ls bs lss (dl & cl & els & -> & _) F IH]; [apply le_n|]. cbn [concat]. rewrite app_length. cbn [length]. lia.
Qed.
Lemma skip_blocks bs liness rest : Forall2 (whole_vblock pf secs sa) bs liness -> bs <> [] -> skip_header (concat liness ++ rest) = concat liness ++ rest.
Proof. intros F N. inversion F as [|b ls bs' lss (dl & cl & els & -> & D & _) F']; subst; [contradiction|]. cbn [concat app]. apply (no_header b). exact D. Qed.
Lemma holds_start : holds [] (map (fun k => (k, [])) wanted).
Proof.
  split; [rewrite map_map; cbn [fst]; apply map_id|]. intros k K. exists []. split; [|constructor]. pose proof (wanted_in k K) as I. clear K.
  induction wanted as [|k0 l IH]; [destruct I|]. cbn [map lookup]. destruct (str_eqb (s2l k) k0) eqn:E; [reflexivity|]. destruct I as [->|I]; [|exact (IH I)].
  rewrite (proj2 (str_eqb_spec (s2l k) (s2l k)) eq_refl) in E. discriminate.
Qed.
End B.
