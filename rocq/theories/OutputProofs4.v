(** The lines vort2ascii_ocb writes. *)
From Coq Require Import String Ascii ZArith QArith Qabs List Bool Lia Lqa Sorted.
From Verif Require Import PyBase TimeModel TimeSpec TimeProofs TextSpec TextProofs FilesModel FilesProofs SmagModel SmagSpec VortModel VortSpec CycleModel CycleSpec CycleProofs DriverModel DriverSpec DriverProofs
  PysatModel PysatSpec GeneralProofs LoadProofs PropertiesCycle PropertiesSmag PropertiesVort PropertiesPysat OutputModel OutputSpec OutputProofs OutputProofs2 OutputProofs3.
Import ListNotations.
Open Scope string_scope.
Open Scope list_scope.
Open Scope Z_scope.

Section V.
Context (pf : str -> res num) (secs : num -> res Z) (show : num -> str).
(** ** Entries *)
Lemma vinstant_fun (b : vblock num) t t' : vinstant secs b t -> vinstant secs b t' -> t = t'.
Proof.
  intros (n & s & l & C & E & -> & _) (n' & s' & l' & C' & E' & -> & _). rewrite E in E'. injection E' as <-.
  apply calendar_day_spec in C. apply calendar_day_spec in C'. destruct C as (_ & _ & _ & ->), C' as (_ & _ & _ & ->). reflexivity.
Qed.
Lemma vinstant_range (b : vblock num) t : vinstant secs b t -> 0 <= t < max_us /\ t mod 1000000 = 0.
Proof.
  intros (n & s & l & C & E & T & P & CL & L). rewrite (last_moment _ CL) in L. split; [lia|]. rewrite T. unfold day_us, sec_us.
  replace (n * 86400000000 + s * 1000000) with ((n * 86400 + s) * 1000000) by lia. apply Z.mod_mul. lia.
Qed.
Lemma keys_unique {A B} (l : list (A * B)) k a b : NoDup (map fst l) -> In (k, a) l -> In (k, b) l -> a = b.
Proof.
  induction l as [|[k0 v0] l IH]; intros N I J; [destruct I|]. cbn [map fst] in N. inversion N as [|? ? NI N']; subst.
  destruct I as [I|I], J as [J|J]; [congruence| | |exact (IH N' I J)].
  - injection I as <- <-. exfalso. apply NI. exact (in_map fst _ _ J).
  - injection J as <- <-. exfalso. apply NI. exact (in_map fst _ _ I).
Qed.
Lemma combine_fst {A B} (l : list A) (m : list B) : length m = length l -> map fst (combine l m) = l.
Proof. revert m. induction l as [|a l IH]; intros [|b m] H; try discriminate; [reflexivity|]. cbn. rewrite IH; [reflexivity|]. injection H as H. exact H. Qed.
Lemma value_unique sa e lines k v v' : written_entry pf sa e lines -> has_value pf k e v -> has_value pf k e v' -> v = v'.
Proof.
  intros (_ & L1 & L2 & L3 & _) (w & I & N) (w' & I' & N'). assert (w = w').
  { eapply (keys_unique (items e) k); [|exact I|exact I']. unfold items. rewrite !map_app, !combine_fst by assumption.
    repeat (constructor; [cbn; intros C; repeat (destruct C as [C|C]; [discriminate C|]); exact C|]). constructor. }
  subst w'. unfold number in *. congruence.
Qed.
Lemma entry_written sa bs liness p : Forall2 (whole_vblock pf secs sa) bs liness -> In p (entries_of bs) -> exists lines, written_entry pf sa (snd p) lines.
Proof.
  intros F. unfold entries_of. induction F as [|b l bs ls W F IH]; [intros []|]. cbn [flat_map]. intros I. apply in_app_or in I. destruct I as [I|I]; [|exact (IH I)].
  destruct W as (dl & cl & els & _ & _ & _ & _ & FS). apply in_map_iff in I. destruct I as (e & <- & I). cbn [snd]. clear - FS I.
  induction FS as [|e0 l0 es ls W FS IH]; [destruct I|]. destruct I as [->|I]; [exists l0; exact W|exact (IH I)].
Qed.

(** ** Columns *)
Definition vcolumns_ok (sa : bool) (D : list (vblock num * vline)) (t : table num) : Prop :=
  forall k, wanted_column sa k -> exists cells, lookup (s2l k) t = Some cells /\ Forall2 (fun p c => vvalue pf secs k (fst p) (snd p) c) D cells.
Lemma vtimes_ok sa D t : vcolumns_ok sa D t -> exists ts, times t "DATETIME" = Ok ts /\ Forall2 (fun p t => vinstant secs (fst p) t) D ts.
Proof.
  intros K. destruct (K "DATETIME") as (cells & L & F); [left; cbn; tauto|]. unfold times, column. rewrite L. cbn [bind]. eapply mapE_cells; [|exact F].
  intros p c P. unfold vvalue in P. repeat match type of P with _ \/ _ => destruct P as [P|P] end; try (destruct P as [A P]; discriminate A).
  - destruct P as [_ (x & I & ->)]. exists x. split; [reflexivity|exact I].
  - destruct P as (w & v & I & _). exfalso. unfold items in I. apply in_app_or in I. destruct I as [I|I]; [|apply in_app_or in I; destruct I as [I|I]]; apply in_combine_l in I; cbn in I; repeat (destruct I as [I|I]; [discriminate I|]); exact I.
Qed.
Lemma vfloat_ok sa D t k : vcolumns_ok sa D t -> In k ["VORTICITY"; "MLT"; "CENTRE_MLAT"] -> exists xs, floats t k = Ok xs /\ Forall2 (fun p x => has_value pf k (snd p) x) D xs.
Proof.
  intros K IN. destruct (K k) as (cells & L & F); [left; cbn in *; tauto|]. unfold floats, column. rewrite L. cbn [bind]. eapply mapE_cells; [|exact F].
  intros p c P. unfold vvalue in P. assert (NK : k <> "YEAR" /\ k <> "MONTH" /\ k <> "DAY" /\ k <> "UTH" /\ k <> "DATETIME"). { cbn in IN. destruct IN as [<-|[<-|[<-|[]]]]; repeat split; discriminate. }
  repeat match type of P with _ \/ _ => destruct P as [P|P] end; try (exfalso; tauto). destruct P as (w & v & I & Nv & ->). exists v. split; [reflexivity|]. exists w. split; assumption.
Qed.

(** ** Selection *)
Lemma beyond_spec h x : h = 1 \/ h = -1 -> (neqb (nsign x) (Fin (inject_Z h)) = true <-> beyond h x).
Proof.
  intros HH. unfold beyond. destruct x as [| |q|]; [destruct HH as [->| ->]; cbn; intuition discriminate|destruct HH as [->| ->]; cbn; intuition discriminate| |destruct HH as [->| ->]; cbn; intuition discriminate].
  assert (A := side_spec h (Fin q) HH). cbn [nfinite andb] in A. rewrite A. unfold on_side. cbn [nlt]. split.
  - intros (q' & E & [[-> L]|[-> L]]); injection E as <-; [left|right]; (split; [reflexivity|]); apply negb_true_iff, not_true_is_false; intros C; apply Qle_bool_iff in C; lra.
  - intros [[-> L]|[-> L]]; exists q; (split; [reflexivity|]); [left|right]; (split; [reflexivity|]); apply negb_true_iff in L; apply Qnot_le_lt; intros C; apply Qle_bool_iff in C; congruence.
Qed.
Lemma where_selected sa h D U lat : h = 1 \/ h = -1 -> (forall p, In p D -> exists lines, written_entry pf sa (snd p) lines) ->
  selected (usable_entry pf h) D U -> Forall2 (fun p x => has_value pf "CENTRE_MLAT" (snd p) x) D lat ->
  forall k, Forall2 (fun i m => exists j, i = Z.of_nat (k + j) /\ nth_error D j = Some m) (where_from (Z.of_nat k) (map (fun x => neqb (nsign x) (Fin (inject_Z h))) lat)) U.
Proof.
  intros HH WE SL. revert lat. induction SL as [|a l m P SL IH|a l m P SL IH]; intros lat F k; inversion F as [|x y l' m' E F']; subst; cbn [map where_from]; [constructor| |].
  - assert (B : beyond h y). { destruct P as (y' & HV & B). destruct (WE a (or_introl eq_refl)) as (lines & W). rewrite (value_unique sa _ lines _ _ _ W E HV). exact B. }
    rewrite (proj2 (beyond_spec h y HH) B). constructor; [exists 0%nat; split; [f_equal; lia|reflexivity]|].
    assert (R := IH (fun p I => WE p (or_intror I)) m' F' (S k)). replace (Z.of_nat k + 1) with (Z.of_nat (S k)) by lia.
    eapply F2_impl; [|exact R]. intros i b (j & -> & N). exists (S j). split; [f_equal; lia|exact N].
  - destruct (neqb _ _) eqn:EB; [exfalso; apply P; exists y; split; [exact E|apply beyond_spec; assumption]|].
    assert (R := IH (fun p I => WE p (or_intror I)) m' F' (S k)). replace (Z.of_nat k + 1) with (Z.of_nat (S k)) by lia.
    eapply F2_impl; [|exact R]. intros i b (j & -> & N). exists (S j). split; [f_equal; lia|exact N].
Qed.
Lemma entries_order (bs : list (vblock num)) : forall i j p q, (i <= j)%nat -> nth_error (entries_of bs) i = Some p -> nth_error (entries_of bs) j = Some q ->
  exists i' j', (i' <= j')%nat /\ nth_error bs i' = Some (fst p) /\ nth_error bs j' = Some (fst q).
Proof.
  unfold entries_of. induction bs as [|b bs IH]; intros i j p q L NP NQ; [destruct i; discriminate|]. cbn [flat_map] in NP, NQ.
  set (l := map (fun s : vline => (b, s)) (vb_ent b)) in *.
  assert (FB : forall k x, nth_error l k = Some x -> fst x = b). { intros k x N. apply nth_error_In in N. unfold l in N. apply in_map_iff in N. destruct N as (s & <- & _). reflexivity. }
  destruct (Nat.lt_ge_cases i (length l)) as [Li|Li].
  - rewrite nth_error_app1 in NP by exact Li. destruct (Nat.lt_ge_cases j (length l)) as [Lj|Lj].
    + rewrite nth_error_app1 in NQ by exact Lj. exists 0%nat, 0%nat. rewrite (FB _ _ NP), (FB _ _ NQ). split; [lia|]. split; reflexivity.
    + rewrite nth_error_app2 in NQ by exact Lj. destruct (IH (j - length l)%nat (j - length l)%nat q q ltac:(lia) NQ NQ) as (i' & j' & _ & _ & N).
      exists 0%nat, (S j'). rewrite (FB _ _ NP). split; [lia|]. split; [reflexivity|exact N].
  - rewrite nth_error_app2 in NP by exact Li. rewrite nth_error_app2 in NQ by lia.
    destruct (IH (i - length l)%nat (j - length l)%nat p q ltac:(lia) NP NQ) as (i' & j' & L' & A1 & A2). exists (S i'), (S j'). split; [lia|]. split; assumption.
Qed.
Lemma vtimes_sorted P bs U T : vchronological secs bs -> selected P (entries_of bs) U -> Forall2 (fun p t => vinstant secs (fst p) t) U T -> time_sorted T.
Proof.
  intros CH S F i j [I1 I2] J. destruct (Z.eq_dec i j) as [->|NE]; [lia|]. unfold zlen in J.
  destruct (nth_in_range T (Z.to_nat i) ltac:(lia)) as (x & NX). destruct (nth_in_range T (Z.to_nat j) ltac:(lia)) as (y & NY).
  destruct (F2_nth_r _ _ _ _ _ F NX) as (p & NP & IP). destruct (F2_nth_r _ _ _ _ _ F NY) as (q & NQ & IQ).
  destruct (selected_sub P _ _ S (Z.to_nat i) (Z.to_nat j) p q ltac:(lia) NP NQ) as (i' & j' & L & A1 & A2). destruct (entries_order bs i' j' p q ltac:(lia) A1 A2) as (i2 & j2 & L2 & B1 & B2).
  replace i with (Z.of_nat (Z.to_nat i)) by lia. replace j with (Z.of_nat (Z.to_nat j)) by lia. rewrite (tm_nth _ _ _ NX), (tm_nth _ _ _ NY).
  exact (CH i2 j2 (fst p) (fst q) x y L2 B1 B2 IP IQ).
Qed.

(** ** Copied columns *)
Lemma names_back (ks : list str) : (forall k, In k ks -> exists k', k = s2l k') -> exists ns, ks = map s2l ns.
Proof.
  induction ks as [|k ks IH]; intros H; [exists []; reflexivity|]. destruct (H k (or_introl eq_refl)) as (k' & ->). destruct IH as (ns & ->); [intros q I; apply H; right; exact I|].
  exists (k' :: ns). reflexivity.
Qed.
Lemma s2l_inj a b : s2l a = s2l b -> a = b.
Proof. revert b. induction a as [|c a IH]; intros [|d b] H; try discriminate; [reflexivity|]. cbn in H. injection H as -> H. f_equal. exact (IH b H). Qed.
Lemma copied_keys (t : table num) : (forall k, In k (map fst t) <-> exists k', k = s2l k' /\ wanted_column true k') ->
  exists keys, vort_keys_out t = map s2l keys /\ copied_columns true keys.
Proof.
  intros K. unfold vort_keys_out. destruct (names_back (filter (fun k => negb (str_eqb k "DATETIME")) (map fst t))) as (ns & E).
  { intros k I. apply filter_In in I. destruct I as [I _]. apply K in I. destruct I as (k' & -> & _). exists k'. reflexivity. }
  exists ns. split; [exact E|]. intros k. split.
  - intros I. split; [reflexivity|]. assert (J : In (s2l k) (map s2l ns)) by (apply in_map; exact I). rewrite <- E in J. apply filter_In in J. destruct J as [J N].
    apply K in J. destruct J as (k' & Ek & W). apply s2l_inj in Ek. subst k'. split; [exact W|]. intros ->. rewrite (proj2 (str_eqb_spec _ _) eq_refl) in N. discriminate.
  - intros (_ & W & N). assert (J : In (s2l k) (map s2l ns)). { rewrite <- E. apply filter_In. split; [apply K; exists k; split; [reflexivity|exact W]|]. apply negb_true_iff, not_true_is_false. intros C. apply str_eqb_spec in C. apply N. apply s2l_inj. exact C. }
    apply in_map_iff in J. destruct J as (k' & E' & J). apply s2l_inj in E'. subst k'. exact J.
Qed.
Lemma copied_values t D j p keys : vcolumns_ok true D t -> vort_keys_out t = map s2l keys -> copied_columns true keys -> nth_error D j = Some p ->
  exists extra, all_values show t (Z.of_nat j) = Ok extra /\ Forall2 (fun k w => exists c, vvalue pf secs k (fst p) (snd p) c /\ shown show c w) keys extra.
Proof.
  intros K E C N. unfold all_values. rewrite E. assert (W : forall k, In k keys -> wanted_column true k /\ k <> "DATETIME") by (intros k I; apply C in I; tauto). clear E C.
  induction keys as [|k keys IH]; [exists []; split; [reflexivity|constructor]|]. destruct IH as (extra & E & F); [intros q I; apply W; right; exact I|].
  destruct (W k (or_introl eq_refl)) as [Wk Nk]. destruct (K k Wk) as (cells & L & FC). destruct (F2_nth _ _ _ _ _ FC N) as (c & NC & V).
  exists (show_cell show c :: extra). cbn [map mapE]. unfold column. rewrite L. cbn [bind]. rewrite (getE_nat _ _ _ NC). cbn [bind]. unfold column in E. rewrite E. split; [reflexivity|].
  constructor; [|exact F]. exists c. split; [exact V|]. unfold vvalue in V. repeat match type of V with _ \/ _ => destruct V as [V|V] end.
  1-3: destruct V as [_ ->]; apply fmt_d_integer.
  - destruct V as [_ ->]. reflexivity.
  - destruct V as [V _]. contradiction.
  - destruct V as (w & v & _ & _ & ->). reflexivity.
Qed.
Lemma shown_word c w : (forall v, word (show v)) -> shown show c w -> word w.
Proof. intros SW. destruct c; cbn; intros H; try contradiction; [eapply integer_word; exact H|subst w; apply SW]. Qed.

(** ** The file *)
Context (make : num -> Z -> Z -> res boundary) (vconv : Z -> num -> num -> num -> num * num * num).
Lemma wanted_word sa k : wanted_column sa k -> word (s2l k).
Proof. intros W. apply wordb_word. destruct W as [W|(_ & W & _)]; cbn in W; repeat (destruct W as [<-|W]; [reflexivity|]); destruct W. Qed.
Lemma vort_lines sa size hs bs liness hemisphere given max_sdiff mn mx ks h b U T AT lats :
  (forall v, word (show v)) -> 0 < size <= 2000000000 -> Forall vheader hs -> Forall2 (whole_vblock pf secs sa) bs liness -> entries_of bs <> [] -> vchronological secs bs ->
  Forall2 (fun p t => vinstant secs (fst p) t) (entries_of bs) AT -> Forall2 (fun p x => has_value pf "CENTRE_MLAT" (snd p) x) (entries_of bs) lats ->
  boundary_used make given hemisphere max_sdiff AT lats h b ->
  searchable b max_sdiff ks -> selected (usable_entry pf h) (entries_of bs) U -> Forall2 (fun p t => vinstant secs (fst p) t) U T ->
  (U = [] -> vort2ascii pf secs show make vconv true size (hs ++ concat liness) true hemisphere given max_sdiff sa mn mx ks = Ok None) /\
  (U <> [] -> (disjoint_periods (b_dtime b) T (good_record b mn mx ks) (b_records b) (b_rec_ind b) (max_sdiff * 1000000) /\
      vort2ascii pf secs show make vconv true size (hs ++ concat liness) true hemisphere given max_sdiff sa mn mx ks = Err TypeError) \/
   (~ disjoint_periods (b_dtime b) T (good_record b mn mx ks) (b_records b) (b_rec_ind b) (max_sdiff * 1000000) /\
   exists keys head l lines, vort2ascii pf secs show make vconv true size (hs ++ concat liness) true hemisphere given max_sdiff sa mn mx ks = Ok (Some (head :: lines)) /\
    copied_columns sa keys /\ spaced (map s2l (["#DATE"; "TIME"] ++ keys ++ ["OCB_LAT"; "OCB_MLT"; "NORM_VORT"])) head /\
    pairs_exactly (b_dtime b) T (candidate (good_record b mn mx ks) (b_records b) (b_rec_ind b)) (max_sdiff * 1000000) l /\
    Forall2 (fun p line => exists m ws, nth_error U (Z.to_nat (fst p)) = Some m /\ spaced ws line /\ vort_words pf secs show keys (vconv (snd p)) m ws) l lines)).
Proof.
  intros SW N H F NE CH FA FLA BU (W & C & SS & MS & RC & RI) S FT.
  assert (PRE : exists t mlt vort, vcolumns_ok sa (entries_of bs) t /\ (forall k, In k (map fst t) <-> exists k', k = s2l k' /\ wanted_column sa k') /\
    Forall2 (fun p x => has_value pf "MLT" (snd p) x) (entries_of bs) mlt /\ Forall2 (fun p x => has_value pf "VORTICITY" (snd p) x) (entries_of bs) vort /\
    let igood := where_from 0 (map (fun x => neqb (nsign x) (Fin (inject_Z h))) lats) in
    let result := vort2ascii pf secs show make vconv true size (hs ++ concat liness) true hemisphere given max_sdiff sa mn mx ks in
    (igood = [] -> result = Ok None) /\ (igood <> [] -> result = (
              dat <- mapE (getE AT) igood ;;
              pairs <- vort_pairs b dat max_sdiff mn mx ks ;;
              out <- mapE (fun p =>
                i <- getE igood (fst p) ;; t0 <- getE AT i ;; la <- getE lats i ;; lt <- getE mlt i ;; v <- getE vort i ;;
                extra <- (if sa then all_values show t i else Ok []) ;;
                let '(nlat, nmlt, nvort) := vconv (snd p) la lt v in
                Ok (text_line (datetime_text t0 :: extra ++ [fixed 2 nlat; fixed 6 nmlt; fixed 6 nvort]))) pairs ;;
              Ok (Some (vort_header sa t :: out))))).
  { destruct (C64_every_entry_loaded pf secs sa size hs bs liness N H F) as [_ LD]. destruct (LD NE) as (t & L & K & CO). assert (CK : vcolumns_ok sa (entries_of bs) t) by exact CO. clear LD CO.
    destruct (vtimes_ok _ _ _ CK) as (ts & ET & FTS). destruct (vfloat_ok _ _ _ "CENTRE_MLAT" CK) as (la & EL & FL); [cbn; tauto|].
    destruct (vfloat_ok _ _ _ "MLT" CK) as (mlt & EM & FM); [cbn; tauto|]. destruct (vfloat_ok _ _ _ "VORTICITY" CK) as (vort & EV & FV); [cbn; tauto|].
    exists t, mlt, vort. split; [exact CK|]. split; [exact K|]. split; [exact FM|]. split; [exact FV|].
    assert (TS : ts = AT). { clear - FTS FA. revert AT FA. induction FTS as [|p a ps l1 I F1 IH]; intros l2 F2; inversion F2; subst; [reflexivity|]. f_equal; [eapply vinstant_fun; eassumption|apply IH; assumption]. }
    assert (LA : la = lats). { assert (WE : forall p, In p (entries_of bs) -> exists lines, written_entry pf sa (snd p) lines) by (intros p; apply (entry_written sa _ _ p F)). clear - FL FLA WE. revert lats FLA.
      induction FL as [|p a ps l1 I F1 IH]; intros l2 F2; inversion F2; subst; [reflexivity|]. destruct (WE p (or_introl eq_refl)) as (lines & W). f_equal; [eapply value_unique; eassumption|apply IH; [intros q J; apply WE; right; exact J|assumption]]. }
    subst ts la. unfold vort2ascii. replace (test_file true size) with true by (symmetry; apply C66_size_gate; [lia|split; [reflexivity|exact N]]). cbn [negb].
    rewrite L. cbn [bind]. rewrite ET, EL. rewrite (boundary_for_used make given hemisphere max_sdiff AT lats h b); [|destruct FLA; [congruence|discriminate]|exact MS| |exact BU].
    2:{ clear - FA. induction FA as [|p t ps ts I FA IH]; constructor; [exact (proj1 (vinstant_range _ _ I))|exact IH]. }
    cbn [bind]. destruct (Z.eqb_spec (b_records b) 0) as [Z0|_]; [lia|]. rewrite EM, EV. cbn [bind]. cbv zeta. destruct (where_from 0 _); split; intros X; try reflexivity; congruence. }
  destruct PRE as (t & mlt & vort & CK & K & FM & FV & RES). cbv zeta in RES. pose proof (proj1 BU) as HH.
  pose proof (where_selected sa h _ _ lats HH (fun p => entry_written sa _ _ p F) S FLA 0%nat) as WS. change (Z.of_nat 0) with 0 in WS. set (ig := where_from 0 _) in *. clearbody ig.
  split; [intros ->; apply RES; inversion WS; reflexivity|]. intros NU. rewrite (proj2 RES) by (intros E; rewrite E in WS; inversion WS; congruence).
  assert (ED : mapE (getE AT) ig = Ok T).
  { clear - WS FT FA. revert T FT. induction WS as [|i m ig U (j & -> & NJ) WS IH]; intros T FT; inversion FT as [|p x U' T' I FT']; subst; [reflexivity|]. cbn [mapE plus].
    destruct (F2_nth _ _ _ _ _ FA NJ) as (x' & NX & I'). rewrite (getE_nat _ _ _ NX). cbn [bind]. rewrite (IH _ FT'). cbn [bind]. rewrite (vinstant_fun _ _ _ I' I). reflexivity. }
  rewrite ED. cbn [bind]. assert (NTT : T <> []) by (intros ->; inversion FT; congruence).
  destruct (vort_pairs_spec b T max_sdiff mn mx ks W C SS (vtimes_sorted _ _ _ _ CH S FT) MS RI NTT) as [[D E]|[D (l & EP & PX)]]; [left; split; [exact D|]; rewrite E; reflexivity|].
  right. split; [exact D|]. change (max_sdiff * usec) with (max_sdiff * 1000000) in PX. rewrite EP. cbn [bind].
  assert (KK : exists keys, vort_header sa t = text_line (map s2l (["#DATE"; "TIME"] ++ keys ++ ["OCB_LAT"; "OCB_MLT"; "NORM_VORT"])) /\ copied_columns sa keys /\
     forall j p, nth_error (entries_of bs) j = Some p -> exists extra, (if sa then all_values show t (Z.of_nat j) else Ok []) = Ok extra /\ Forall2 (fun k w => exists c, vvalue pf secs k (fst p) (snd p) c /\ shown show c w) keys extra).
  { destruct sa.
    - destruct (copied_keys t K) as (keys & EK & CK2). exists keys. unfold vort_header. rewrite EK. split; [rewrite !map_app; reflexivity|]. split; [exact CK2|].
      intros j p NJ. exact (copied_values t _ j p keys CK EK CK2 NJ).
    - exists []. split; [reflexivity|]. split; [intros k; split; [intros []|intros [E _]; discriminate]|]. intros j p _. exists []. split; [reflexivity|constructor]. }
  destruct KK as (keys & EH & CC & EX). exists keys, (vort_header sa t), l.
  assert (FL2 : exists out, Forall2 (fun p line => exists m ws, (i <- getE ig (fst p) ;; t0 <- getE AT i ;; la <- getE lats i ;; lt <- getE mlt i ;; v <- getE vort i ;;
                extra <- (if sa then all_values show t i else Ok []) ;;
                let '(nlat, nmlt, nvort) := vconv (snd p) la lt v in
                Ok (text_line (datetime_text t0 :: extra ++ [fixed 2 nlat; fixed 6 nmlt; fixed 6 nvort]))) = Ok line /\ nth_error U (Z.to_nat (fst p)) = Some m /\ spaced ws line /\ vort_words pf secs show keys (vconv (snd p)) m ws) l out).
  { assert (IN : forall p, In p l -> 0 <= fst p < zlen T). { intros [i r] I. apply PX in I. cbn [fst]. tauto. }
    clear PX EP. induction l as [|p l IH]; [exists []; constructor|]. destruct IH as (out & FO); [intros q I; apply IN; right; exact I|].
    pose proof (IN p (or_introl eq_refl)) as R. destruct (getE_in T (fst p) R) as (t0 & G0 & N0).
    destruct (F2_nth_r _ _ _ _ _ FT N0) as (m & NM & IM). destruct (F2_nth_r _ _ _ _ _ WS NM) as (i & NI & (j & -> & NJ)). cbn [plus] in NI.
    destruct (F2_nth _ _ _ _ _ FA NJ) as (t1 & NT & I1). rewrite (vinstant_fun _ _ _ I1 IM) in NT. destruct (F2_nth _ _ _ _ _ FLA NJ) as (la & NL & VL).
    destruct (F2_nth _ _ _ _ _ FM NJ) as (lt & NLT & VM). destruct (F2_nth _ _ _ _ _ FV NJ) as (v & NV & VV). destruct (EX _ _ NJ) as (extra & EE & FE).
    destruct (vconv (snd p) la lt v) as [[nlat nmlt] nvort] eqn:EC. destruct (vinstant_range _ _ IM) as [IR1 IR2]. destruct (datetime_text_spec _ IR1 IR2) as (date & tod & ET & CL). destruct (clock_words _ _ _ CL) as [W1 W2].
    exists (text_line (date :: tod :: extra ++ [fixed 2 nlat; fixed 6 nmlt; fixed 6 nvort]) :: out). constructor; [|exact FO].
    exists m, (date :: tod :: extra ++ [fixed 2 nlat; fixed 6 nmlt; fixed 6 nvort]).
    split; [|split; [exact NM|split]].
    - replace (fst p) with (Z.of_nat (Z.to_nat (fst p))) by lia. rewrite (getE_nat _ _ _ NI). cbn [bind]. rewrite (getE_nat _ _ _ NT), (getE_nat _ _ _ NL), (getE_nat _ _ _ NLT), (getE_nat _ _ _ NV). cbn [bind]. rewrite EE. cbn [bind]. rewrite EC. rewrite (clock_spaced _ _ _ _ ET). reflexivity.
    - apply text_line_spaced; [discriminate|]. constructor; [exact W1|]. constructor; [exact W2|]. apply Forall_app. split.
      + clear - FE SW. induction FE as [|k w ks ws (c & _ & SH) FE IH]; constructor; [eapply shown_word; eassumption|exact IH].
      + repeat (constructor; [eapply shows_word; apply fixed_shows|]). constructor.
    - exists t0, la, lt, v, date, tod, extra. do 3 eexists. split; [exact IM|]. split; [exact VL|]. split; [exact VM|]. split; [exact VV|]. split; [reflexivity|]. split; [exact CL|]. split; [exact FE|].
      rewrite EC. split; [apply fixed_shows|]. split; apply fixed_shows. }
  destruct FL2 as (out & FO). exists out. rewrite (mapE_ok _ l out). 2:{ clear - FO. induction FO as [|p o l out (m & ws & E & _) FO IH]; constructor; assumption. }
  cbn [bind]. split; [reflexivity|]. split; [exact CC|]. split; [|split; [exact PX|]].
  - rewrite EH. apply text_line_spaced; [discriminate|]. apply Forall_forall. intros w I. apply in_map_iff in I. destruct I as (k & <- & I). apply in_app_or in I. destruct I as [I|I]; [cbn in I; destruct I as [<-|[<-|[]]]; apply wordb_word; reflexivity|].
    apply in_app_or in I. destruct I as [I|I]; [apply CC in I; destruct I as (_ & WW & _); exact (wanted_word true k WW)|cbn in I; destruct I as [<-|[<-|[<-|[]]]]; apply wordb_word; reflexivity].
  - clear - FO. induction FO as [|p o l out (m & ws & _ & E) FO IH]; constructor; [exists m, ws; exact E|assumption].
Qed.
End V.
