(** C118-C125: the files written by supermag2ascii_ocb and vort2ascii_ocb. *)
From Coq Require Import String Ascii ZArith QArith Qabs List Bool Lia Lqa Sorted.
From Verif Require Import PyBase TimeModel TimeSpec TimeProofs TimeProofs3 TextSpec TextProofs FilesModel FilesProofs SmagModel SmagSpec VortModel VortSpec CycleModel CycleSpec CycleProofs DriverModel DriverSpec DriverProofs
  PysatModel PysatSpec GeneralProofs LoadProofs PropertiesCycle PropertiesSmag PropertiesVort PropertiesPysat OutputModel OutputSpec OutputProofs OutputProofs2 OutputProofs3 OutputProofs4 OutputProofs5.
Import ListNotations.
Open Scope string_scope.
Open Scope list_scope.
Open Scope Z_scope.

Section Supermag.
Context (pf : str -> res num) (nanfill : num -> num) (make : num -> Z -> Z -> res boundary) (conv : Z -> mrow -> mvec).
Notation convert := (supermag2ascii pf nanfill make conv).
(** A file of whole blocks in order of time, the boundary and hemisphere used, and the usable
    stations [U] with their times [T]. *)
Definition smag_input (size : Z) (hs : list str) (bs : list (block num)) (liness : list (list str)) hemisphere given max_sdiff ks (h : Z) (b : boundary) U T : Prop :=
  0 < size <= 2000000000 /\ header hs /\ Forall2 (whole_block pf) bs liness /\ bs <> [] /\ chronological bs /\
  (exists all, Forall2 (fun p t => instant (fst p) t) (stations_of bs) all /\ boundary_used make given hemisphere max_sdiff all (map (fun p => st_mlat (snd p)) (stations_of bs)) h b) /\
  searchable b max_sdiff ks /\ selected (usable_station nanfill h) (stations_of bs) U /\ Forall2 (fun p t => instant (fst p) t) U T.
(** The periods of the boundary and of the data do not overlap (in one of the two ways of C10). *)
Definition apart b T max_sdiff mn mx ks : Prop :=
  T <> [] /\ disjoint_periods (b_dtime b) T (good_record b mn mx ks) (b_records b) (b_rec_ind b) (max_sdiff * 1000000).
Definition paired b T max_sdiff mn mx ks l : Prop :=
  pairs_exactly (b_dtime b) T (candidate (good_record b mn mx ks) (b_records b) (b_rec_ind b)) (max_sdiff * 1000000) l.

(** ** C118 *)
(** A line of column names, then one line for each usable station that has a good record within
    [max_sdiff] seconds, in the order of the input, with the values of the station and those
    converted at the closest good record. *)
Theorem C118_supermag_lines_partial size hs bs liness hemisphere given max_sdiff mn mx ks h b U T :
  smag_input size hs bs liness hemisphere given max_sdiff ks h b U T -> ~ apart b T max_sdiff mn mx ks ->
  exists head l lines, convert true size (hs ++ concat liness) true hemisphere given max_sdiff mn mx ks = Ok (Some (head :: lines)) /\
    spaced (map s2l smag_columns) head /\ paired b T max_sdiff mn mx ks l /\
    Forall2 (fun p line => exists m row ws, nth_error U (Z.to_nat (fst p)) = Some m /\ measured nanfill m row /\
      spaced ws line /\ smag_words row (times_at T (m_time row)) (conv (snd p) row) ws) l lines.
Proof.
  intros (N & H & F & NE & CH & (all & FA & BU) & SB & S & FT) ND. destruct (file_lines pf nanfill make conv size hs bs liness hemisphere given max_sdiff mn mx ks h b U T all N H F NE CH FA BU SB S FT) as [(NT & D & _)|(_ & l & lines & E & P & FL)]; [exfalso; apply ND; split; assumption|].
  exists smag_header, l, lines. split; [exact E|]. split; [exact header_words|]. split; [exact P|exact FL].
Qed.
(** Otherwise the call fails, after the file has been opened. *)
Theorem C118_supermag_apart_refuted size hs bs liness hemisphere given max_sdiff mn mx ks h b U T :
  smag_input size hs bs liness hemisphere given max_sdiff ks h b U T -> apart b T max_sdiff mn mx ks ->
  convert true size (hs ++ concat liness) true hemisphere given max_sdiff mn mx ks = Err TypeError.
Proof.
  intros (N & H & F & NE & CH & (all & FA & BU) & SB & S & FT) D. destruct (file_lines pf nanfill make conv size hs bs liness hemisphere given max_sdiff mn mx ks h b U T all N H F NE CH FA BU SB S FT) as [(_ & _ & E)|(ND & _)]; [exact E|contradiction].
Qed.

(** ** C119 *)
(** The third word of a line is the number of lines of the file with its date and time. *)
Definition same_instant (line line' : str) : Prop := exists date tod ws ws', spaced (date :: tod :: ws) line /\ spaced (date :: tod :: ws') line'.
Theorem C119_number_of_stations size hs bs liness hemisphere given max_sdiff mn mx ks h b U T head lines :
  smag_input size hs bs liness hemisphere given max_sdiff ks h b U T -> ~ apart b T max_sdiff mn mx ks ->
  convert true size (hs ++ concat liness) true hemisphere given max_sdiff mn mx ks = Ok (Some (head :: lines)) ->
  forall line, In line lines -> exists date tod nst ws same, spaced (date :: tod :: nst :: ws) line /\ selected (same_instant line) lines same /\ integer (zlen same) nst.
Proof.
  intros I ND E line IL. pose proof I as (_ & _ & _ & _ & _ & _ & _ & _ & FT).
  destruct (C118_supermag_lines_partial _ _ _ _ _ _ _ mn mx _ _ _ _ _ I ND) as (head' & l & lines' & E' & _ & P & FL). rewrite E in E'. injection E' as <- <-.
  assert (R : Forall2 (fun p line => exists date tod nst ws, spaced (date :: tod :: nst :: ws) line /\ clock (tm T (fst p)) date tod /\ integer (times_at T (tm T (fst p))) nst) l lines).
  { assert (RG : forall p, In p l -> 0 <= fst p) by (intros [i r] J; apply P in J; cbn [fst]; lia). clear - FL FT RG.
    induction FL as [|p line l lines (m & row & ws & NM & MR & SP & (date & tod & wn & wl & wu & fs & -> & CL & IN & _)) FL IH]; constructor; [|apply IH; intros q J; apply RG; right; exact J].
    destruct (F2_nth _ _ _ _ _ FT NM) as (t & NT & IT). assert (ET : m_time row = t) by (destruct m as [mb ms]; destruct MR as [MR _]; eapply instant_fun; eassumption).
    rewrite ET in *. pose proof (tm_nth _ _ _ NT) as TT. rewrite Z2Nat.id in TT by (apply RG; left; reflexivity). rewrite TT. eauto 8. }
  apply In_nth_error in IL. destruct IL as [k NK]. destruct (F2_nth_r _ _ _ _ _ R NK) as (p & NP & (date & tod & nst & ws & SP & CL & IN)).
  destruct (selected_count _ (fun q => tm T (fst q) =? tm T (fst p)) (same_instant line) l lines R) as (same & SS & LL).
  - intros q line' (date' & tod' & nst' & ws' & SP' & CL' & _). rewrite Z.eqb_eq. split.
    + intros EQ. rewrite EQ in CL'. destruct (clock_text _ _ _ _ _ CL CL') as [<- <-]. exists date, tod, (nst :: ws), (nst' :: ws'). split; assumption.
    + intros (d2 & t2 & w2 & w2' & S1 & S2). apply words_spaced in S1. apply words_spaced in S2. apply words_spaced in SP as WP. apply words_spaced in SP'. rewrite S1 in WP. rewrite S2 in SP'.
      injection WP as <- <- _. injection SP' as <- <- _. eapply clock_time; eassumption.
  - exists date, tod, nst, ws, same. split; [exact SP|]. split; [exact SS|]. unfold zlen. rewrite LL. change (integer (zlen (filter (fun q => tm T (fst q) =? tm T (fst p)) l)) nst).
    rewrite (pairs_count _ _ _ _ _ p P (nth_error_In _ _ NP)). exact IN.
Qed.

(** ** C120 *)
Theorem C120_supermag_columns size hs bs liness hemisphere given max_sdiff mn mx ks h b U T head lines :
  smag_input size hs bs liness hemisphere given max_sdiff ks h b U T -> ~ apart b T max_sdiff mn mx ks ->
  convert true size (hs ++ concat liness) true hemisphere given max_sdiff mn mx ks = Ok (Some (head :: lines)) ->
  exists names, spaced names head /\ forall line, In line lines -> exists ws, spaced ws line /\ length ws = length names.
Proof.
  intros I ND E. destruct (C118_supermag_lines_partial _ _ _ _ _ _ _ mn mx _ _ _ _ _ I ND) as (head' & l & lines' & E' & HW & P & FL). rewrite E in E'. injection E' as <- <-.
  exists (map s2l smag_columns). split; [exact HW|]. intros line IL. apply In_nth_error in IL. destruct IL as [k NK].
  destruct (F2_nth_r _ _ _ _ _ FL NK) as (p & _ & (m & row & ws & _ & _ & SP & (date & tod & wn & wl & wu & fs & -> & _ & _ & _ & _ & FS))). eexists. split; [exact SP|].
  apply F2_length in FS. cbn [length] in *. rewrite <- FS. reflexivity.
Qed.
End Supermag.

Section Vort.
Context (pf : str -> res num) (secs : num -> res Z) (show : num -> str) (make : num -> Z -> Z -> res boundary) (vconv : Z -> num -> num -> num -> num * num * num).
Notation convert := (vort2ascii pf secs show make vconv).
Definition vort_input (sa : bool) (size : Z) (hs : list str) (bs : list (vblock num)) (liness : list (list str)) hemisphere given max_sdiff ks (h : Z) (b : boundary) U T : Prop :=
  (forall v, word (show v)) /\ 0 < size <= 2000000000 /\ Forall vheader hs /\ Forall2 (whole_vblock pf secs sa) bs liness /\ entries_of bs <> [] /\ vchronological secs bs /\
  (exists all lats, Forall2 (fun p t => vinstant secs (fst p) t) (entries_of bs) all /\ Forall2 (fun p x => has_value pf "CENTRE_MLAT" (snd p) x) (entries_of bs) lats /\
     boundary_used make given hemisphere max_sdiff all lats h b) /\
  searchable b max_sdiff ks /\ selected (usable_entry pf h) (entries_of bs) U /\ Forall2 (fun p t => vinstant secs (fst p) t) U T.

(** ** C121 *)
Theorem C121_vort_lines_partial sa size hs bs liness hemisphere given max_sdiff mn mx ks h b U T :
  vort_input sa size hs bs liness hemisphere given max_sdiff ks h b U T -> U <> [] -> ~ apart b T max_sdiff mn mx ks ->
  exists keys head l lines, convert true size (hs ++ concat liness) true hemisphere given max_sdiff sa mn mx ks = Ok (Some (head :: lines)) /\
    copied_columns sa keys /\ spaced (map s2l (["#DATE"; "TIME"] ++ keys ++ ["OCB_LAT"; "OCB_MLT"; "NORM_VORT"])) head /\ paired b T max_sdiff mn mx ks l /\
    Forall2 (fun p line => exists m ws, nth_error U (Z.to_nat (fst p)) = Some m /\ spaced ws line /\ vort_words pf secs show keys (vconv (snd p)) m ws) l lines.
Proof.
  intros (SW & N & H & F & NE & CH & (all & lats & FA & FL & BU) & SB & S & FT) NU ND.
  destruct (vort_lines pf secs show make vconv sa size hs bs liness hemisphere given max_sdiff mn mx ks h b U T all lats SW N H F NE CH FA FL BU SB S FT) as [_ K]. destruct (K NU) as [(D & _)|(_ & R)]; [|exact R].
  exfalso. apply ND. split; [intros ->; inversion FT; congruence|exact D].
Qed.
Theorem C121_vort_apart_refuted sa size hs bs liness hemisphere given max_sdiff mn mx ks h b U T :
  vort_input sa size hs bs liness hemisphere given max_sdiff ks h b U T -> apart b T max_sdiff mn mx ks ->
  convert true size (hs ++ concat liness) true hemisphere given max_sdiff sa mn mx ks = Err TypeError.
Proof.
  intros (SW & N & H & F & NE & CH & (all & lats & FA & FL & BU) & SB & S & FT) [NT D].
  destruct (vort_lines pf secs show make vconv sa size hs bs liness hemisphere given max_sdiff mn mx ks h b U T all lats SW N H F NE CH FA FL BU SB S FT) as [_ K].
  destruct K as [(_ & E)|(ND & _)]; [intros ->; inversion FT; subst; congruence|exact E|contradiction].
Qed.
(** No entry in the hemisphere: no file. *)
Theorem C121_other_hemisphere sa size hs bs liness hemisphere given max_sdiff mn mx ks h b U T :
  vort_input sa size hs bs liness hemisphere given max_sdiff ks h b U T -> U = [] -> convert true size (hs ++ concat liness) true hemisphere given max_sdiff sa mn mx ks = Ok None.
Proof.
  intros (SW & N & H & F & NE & CH & (all & lats & FA & FL & BU) & SB & S & FT) NU.
  destruct (vort_lines pf secs show make vconv sa size hs bs liness hemisphere given max_sdiff mn mx ks h b U T all lats SW N H F NE CH FA FL BU SB S FT) as [K _]. exact (K NU).
Qed.
Theorem C120_vort_columns sa size hs bs liness hemisphere given max_sdiff mn mx ks h b U T head lines :
  vort_input sa size hs bs liness hemisphere given max_sdiff ks h b U T -> ~ apart b T max_sdiff mn mx ks ->
  convert true size (hs ++ concat liness) true hemisphere given max_sdiff sa mn mx ks = Ok (Some (head :: lines)) ->
  exists names, spaced names head /\ forall line, In line lines -> exists ws, spaced ws line /\ length ws = length names.
Proof.
  intros I ND E. assert (NU : U <> []). { intros NU. rewrite (C121_other_hemisphere _ _ _ _ _ _ _ _ mn mx _ _ _ _ _ I NU) in E. discriminate. }
  destruct (C121_vort_lines_partial _ _ _ _ _ _ _ _ mn mx _ _ _ _ _ I NU ND) as (keys & head' & l & lines' & E' & _ & HW & _ & FL). rewrite E in E'. injection E' as <- <-.
  eexists. split; [exact HW|]. intros line IL. apply In_nth_error in IL. destruct IL as [k NK].
  destruct (F2_nth_r _ _ _ _ _ FL NK) as (p & _ & (m & ws & _ & SP & (t & la & lt & v & date & tod & extra & w1 & w2 & w3 & _ & _ & _ & _ & -> & _ & FE & _))). eexists. split; [exact SP|].
  apply F2_length in FE. rewrite map_length, !app_length. cbn [length]. rewrite app_length. cbn [length]. rewrite FE. reflexivity.
Qed.
End Vort.
