(** The lines supermag2ascii_ocb writes. *)
From Coq Require Import String Ascii ZArith QArith Qabs List Bool Lia Lqa Sorted.
From Verif Require Import PyBase TimeModel TimeSpec TimeProofs TextSpec TextProofs FilesModel SmagModel SmagSpec CycleModel CycleSpec CycleProofs DriverModel DriverSpec DriverProofs
  PysatModel PysatSpec GeneralProofs LoadProofs PropertiesCycle PropertiesSmag PropertiesPysat OutputModel OutputSpec OutputProofs OutputProofs2.
Import ListNotations.
Open Scope string_scope.
Open Scope list_scope.
Open Scope Z_scope.

Lemma last_moment d : calendar_day 9999 12 31 d -> day_us (d + 1) = max_us.
Proof. intros C. apply calendar_day_spec in C. destruct C as (_ & _ & _ & ->). reflexivity. Qed.
Lemma on_on h x : on_side h x -> (h = 1 /\ on North x) \/ (h = -1 /\ on South x).
Proof.
  intros (q & -> & [[-> L]|[-> L]]); [left|right]; (split; [reflexivity|]); cbn; apply negb_true_iff; apply not_true_is_false; intros C; apply Qle_bool_iff in C; lra.
Qed.
Lemma detect_side h lat : lat <> [] -> (h = 1 \/ h = -1) -> (forall x, In x lat -> on_side h x) -> detect_hemisphere (Fin 0) lat = Ok (Fin (inject_Z h)).
Proof.
  intros N HH A. destruct lat as [|y l]; [congruence|]. destruct HH as [-> | ->].
  - apply (C112_detected_partial North); [exists y; split; [left; reflexivity|]|].
    + destruct (A y (or_introl eq_refl)) as (q & -> & _). discriminate.
    + intros x I. right. destruct (on_on _ _ (A x I)) as [[_ O]|[E _]]; [exact O|lia].
  - apply (C112_detected_partial South); [exists y; split; [left; reflexivity|]|].
    + destruct (A y (or_introl eq_refl)) as (q & -> & _). discriminate.
    + intros x I. right. destruct (on_on _ _ (A x I)) as [[E _]|[_ O]]; [lia|exact O].
Qed.
Lemma getE_end {A} (l : list A) a : nth_error l (length l - 1) = Some a -> getE l (-1) = Ok a.
Proof.
  intros N. assert (L : (length l - 1 < length l)%nat) by (apply nth_error_Some; congruence). unfold getE, py_get.
  replace ((0 <=? -1) && (-1 <? Z.of_nat (length l))) with false by reflexivity.
  replace ((- Z.of_nat (length l) <=? -1) && (-1 <? 0)) with true by (symmetry; apply andb_true_iff; split; [apply Z.leb_le; lia|reflexivity]).
  replace (Z.to_nat (Z.of_nat (length l) + -1)) with (length l - 1)%nat by lia. rewrite N. reflexivity.
Qed.
Lemma boundary_for_used make given hemisphere max_sdiff ts lats h b : lats <> [] -> 0 <= max_sdiff -> Forall (fun t => 0 <= t < max_us) ts ->
  boundary_used make given hemisphere max_sdiff ts lats h b -> boundary_for make given hemisphere max_sdiff (Ok ts) (Ok lats) = Ok (b, Fin (inject_Z h)).
Proof.
  intros NE MS RT [HH B]. unfold boundary_for. assert (NZ : neqb (Fin (inject_Z h)) (Fin 0) = false) by (destruct HH as [->| ->]; reflexivity). destruct given as [[b' bh]|].
  - destruct B as [-> [->|[-> ->]]]; [rewrite NZ; reflexivity|reflexivity].
  - destruct B as [HX (first & last & d & N0 & N1 & C & A1 & A2 & M)]. cbn [bind]. rewrite (getE_nat _ 0 _ N0 : getE ts 0 = _). cbn [bind]. rewrite (getE_end _ _ N1). cbn [bind].
    pose proof (proj1 (Forall_forall _ _) RT first (nth_error_In _ _ N0)) as R0. pose proof (proj1 (Forall_forall _ _) RT last (nth_error_In _ _ N1)) as R1. cbv beta in R0, R1.
    rewrite (last_moment _ C) in *. unfold sec_us in *. unfold add_us.
    replace ((0 <=? first + - ((max_sdiff + 1) * 1000000)) && (first + - ((max_sdiff + 1) * 1000000) <? max_us)) with true by (symmetry; apply andb_true_iff; split; [apply Z.leb_le|apply Z.ltb_lt]; lia).
    replace ((0 <=? last + (max_sdiff + 1) * 1000000) && (last + (max_sdiff + 1) * 1000000 <? max_us)) with true by (symmetry; apply andb_true_iff; split; [apply Z.leb_le|apply Z.ltb_lt]; lia).
    cbn [bind]. change (first + - ((max_sdiff + 1) * 1000000)) with (first - (max_sdiff + 1) * 1000000).
    destruct HX as [->|[-> A]]; [rewrite NZ; cbn [bind]; rewrite M; reflexivity|]. rewrite (detect_side h lats NE HH A). cbn [neqb]. change (Qeq_bool 0 0) with true. cbv iota. cbn [bind]. rewrite M. reflexivity.
Qed.

(** ** The words *)
Lemma clock_spaced t date tod ws : datetime_text t = date ++ " "%char :: tod -> text_line (datetime_text t :: ws) = text_line (date :: tod :: ws).
Proof. intros ->. destruct ws as [|w ws]; [cbn; rewrite <- !app_assoc; reflexivity|]. rewrite (text_line_cons date) by discriminate. rewrite !text_line_cons by discriminate. rewrite <- app_assoc. reflexivity. Qed.
Lemma spaced_words ws s : spaced ws s -> Forall word ws.
Proof. induction 1 as [w W|w t v W T V|w t c ts s W T C S IH]; constructor; auto. Qed.
Section Lines.
Context (pf : str -> res num) (nanfill : num -> num).
Lemma station_ids bs liness p : Forall2 (whole_block pf) bs liness -> In p (stations_of bs) -> word (st_id (snd p)).
Proof.
  intros F. unfold stations_of. induction F as [|b l bs ls W F IH]; [intros []|]. cbn [flat_map]. intros I. apply in_app_or in I. destruct I as [I|I]; [|exact (IH I)].
  destruct W as [(dl & ils & sls & _ & _ & _ & _ & FS) _]. apply in_map_iff in I. destruct I as (s & <- & I). cbn [snd]. clear - FS I.
  induction FS as [|s0 l0 ss ls (ws & S & _) FS IH]; [destruct I|]. destruct I as [->|I]; [|exact (IH I)]. apply spaced_words in S. inversion S; assumption.
Qed.
Lemma selected_in {A} (P : A -> Prop) l m x : selected P l m -> In x m -> In x l.
Proof. induction 1 as [|a l m H S IH|a l m H S IH]; [intros []| |intros I; right; exact (IH I)]. intros [->|I]; [left; reflexivity|right; exact (IH I)]. Qed.
Lemma line_words nst r v : word (m_id r) -> 0 <= m_time r < max_us -> m_time r mod 1000000 = 0 -> exists ws, spaced ws (smag_out_line nst r v) /\ smag_words r nst v ws.
Proof.
  intros WI R M. destruct (datetime_text_spec _ R M) as (date & tod & E & C). destruct (clock_words _ _ _ C) as [W1 W2]. unfold smag_out_line. rewrite (clock_spaced _ _ _ _ E).
  eexists. split.
  - apply text_line_spaced; [discriminate|]. constructor; [exact W1|]. constructor; [exact W2|]. constructor; [eapply integer_word; apply fmt_d_integer|].
    constructor; [exact WI|]. constructor; [eapply integer_word; apply fmt_d_integer|]. constructor; [eapply integer_word; apply fmt_d_integer|].
    repeat (constructor; [eapply shows_word; apply fixed_shows|]). constructor.
  - exists date, tod, (fmt_d nst), (fmt_d (m_sml r)), (fmt_d (m_smu r)). eexists. split; [reflexivity|]. split; [exact C|]. split; [apply fmt_d_integer|]. split; [apply fmt_d_integer|]. split; [apply fmt_d_integer|].
    repeat (constructor; [apply fixed_shows|]). constructor.
Qed.
Lemma header_words : spaced (map s2l smag_columns) smag_header.
Proof. apply text_line_spaced; [discriminate|]. apply Forall_forall. intros w I. apply wordb_word. revert w I. apply Forall_forall. repeat (constructor; [reflexivity|]). constructor. Qed.

(** ** The file *)
Context (make : num -> Z -> Z -> res boundary) (conv : Z -> mrow -> mvec).
Lemma file_lines size hs bs liness hemisphere given max_sdiff mn mx ks h b U T AT :
  0 < size <= 2000000000 -> header hs -> Forall2 (whole_block pf) bs liness -> bs <> [] -> chronological bs ->
  Forall2 (fun p t => instant (fst p) t) (stations_of bs) AT -> boundary_used make given hemisphere max_sdiff AT (map (fun p => st_mlat (snd p)) (stations_of bs)) h b ->
  searchable b max_sdiff ks -> selected (usable_station nanfill h) (stations_of bs) U -> Forall2 (fun p t => instant (fst p) t) U T ->
  (T <> [] /\ disjoint_periods (b_dtime b) T (good_record b mn mx ks) (b_records b) (b_rec_ind b) (max_sdiff * 1000000) /\
    supermag2ascii pf nanfill make conv true size (hs ++ concat liness) true hemisphere given max_sdiff mn mx ks = Err TypeError) \/
  (~ (T <> [] /\ disjoint_periods (b_dtime b) T (good_record b mn mx ks) (b_records b) (b_rec_ind b) (max_sdiff * 1000000)) /\
   exists l lines, supermag2ascii pf nanfill make conv true size (hs ++ concat liness) true hemisphere given max_sdiff mn mx ks = Ok (Some (smag_header :: lines)) /\
    pairs_exactly (b_dtime b) T (candidate (good_record b mn mx ks) (b_records b) (b_rec_ind b)) (max_sdiff * 1000000) l /\
    Forall2 (fun p line => exists m row ws, nth_error U (Z.to_nat (fst p)) = Some m /\ measured nanfill m row /\
      spaced ws line /\ smag_words row (times_at T (m_time row)) (conv (snd p) row) ws) l lines).
Proof.
  intros N H F NE CH FA BU (W & C & SS & MS & RC & RI) S FT. unfold supermag2ascii.
  replace (test_file true size) with true by (symmetry; apply C66_size_gate; [lia|split; [reflexivity|exact N]]). cbn [negb].
  destruct (C62_every_line_loaded pf nanfill size hs bs liness N H F) as (t & L & _ & K). rewrite L. cbn [bind snd].
  assert (CK : columns_ok nanfill (stations_of bs) t) by exact K.
  destruct (times_ok nanfill _ _ CK) as (ts & ET & FTS). rewrite ET.
  assert (EQ : forall ps l1 l2, Forall2 (fun p t => instant (fst p) t) ps l1 -> Forall2 (fun (p : block num * station num) t => instant (fst p) t) ps l2 -> l1 = l2).
  { clear. intros ps l1 l2 F1. revert l2. induction F1 as [|p a ps l1 I F1 IH]; intros l2 F2; inversion F2; subst; [reflexivity|]. f_equal; [eapply instant_fun; eassumption|apply IH; assumption]. }
  rewrite (EQ _ _ _ FTS FA) in *. clear ts FTS.
  destruct (float_ok nanfill _ _ "MLAT" (fun s => st_mlat s) CK) as (la & EL & FL); [cbn; intuition| |].
  { intros p c P. unfold value in P. repeat match type of P with _ \/ _ => destruct P as [P|P] end; destruct P as [A P]; try discriminate A. exact P. }
  rewrite EL. assert (LA : la = map (fun p => st_mlat (snd p)) (stations_of bs)). { clear - FL. induction FL as [|p x ps la E FL IH]; [reflexivity|]. cbn [map]. rewrite E, IH. reflexivity. }
  assert (NS : stations_of bs <> []). { destruct F as [|b0 l0 bs ls [_ NB] F]; [congruence|]. unfold stations_of. cbn [flat_map]. destruct (b_st b0); [congruence|discriminate]. }
  rewrite (boundary_for_used make given hemisphere max_sdiff AT la h b); [|subst la; destruct (stations_of bs); [congruence|discriminate]|exact MS| |subst la; exact BU].
  2:{ clear - FA. induction FA as [|p t ps ts I FA IH]; constructor; [exact (proj1 (instant_range _ _ I))|exact IH]. }
  cbn [bind]. destruct (Z.eqb_spec (b_records b) 0) as [Z0|_]; [lia|].
  destruct (rows_ok nanfill _ _ CK) as (rows & ER & FR). rewrite ER. cbn [bind].
  pose proof (proj1 BU) as HH. pose proof (selected_rows nanfill h _ _ rows HH S FR) as FU. set (sel := filter (usable (Fin (inject_Z h))) rows) in *.
  pose proof (rows_times nanfill _ _ FU) as FUT. rewrite <- (EQ _ _ _ FT FUT) in *. pose proof (EQ _ _ _ FT FUT) as ETT.
  pose proof (times_sorted _ _ _ _ CH S FT) as TS.
  assert (PX : (T <> [] /\ disjoint_periods (b_dtime b) T (good_record b mn mx ks) (b_records b) (b_rec_ind b) (max_sdiff * 1000000) /\ supermag_pairs b T max_sdiff mn mx ks = Err TypeError) \/
     (~ (T <> [] /\ disjoint_periods (b_dtime b) T (good_record b mn mx ks) (b_records b) (b_rec_ind b) (max_sdiff * 1000000)) /\
      exists l, supermag_pairs b T max_sdiff mn mx ks = Ok l /\ pairs_exactly (b_dtime b) T (candidate (good_record b mn mx ks) (b_records b) (b_rec_ind b)) (max_sdiff * 1000000) l)).
  { destruct T as [|t0 T'].
    - right. split; [intros [X _]; congruence|]. exists []. split; [reflexivity|]. split; [constructor|]. intros i r. split; [intros []|]. unfold zlen. cbn [length]. lia.
    - assert (NT : t0 :: T' <> []) by discriminate. destruct (supermag_pairs_spec b (t0 :: T') max_sdiff mn mx ks W C SS TS MS RI NT) as [[D E]|[D E]]; [left|right]; [auto|]. split; [intros [_ X]; exact (D X)|exact E]. }
  destruct PX as [(NT & D & E)|(ND & l & EP & PX)]; [left; split; [exact NT|]; split; [exact D|]; rewrite E; reflexivity|]. right. split; [exact ND|]. rewrite EP. cbn [bind]. exists l.
  assert (FL2 : exists out, Forall2 (fun p line => exists m row ws, (r <- getE sel (fst p) ;; Ok (smag_out_line (zlen (same_time T (fst p))) r (conv (snd p) r))) = Ok line /\ nth_error U (Z.to_nat (fst p)) = Some m /\ measured nanfill m row /\
      spaced ws line /\ smag_words row (times_at T (m_time row)) (conv (snd p) row) ws) l out).
  { assert (IN : forall p, In p l -> 0 <= fst p < zlen T). { intros [i r] I. apply PX in I. cbn [fst]. tauto. }
    clear PX EP. induction l as [|p l IH]; [exists []; constructor|]. destruct IH as (out & FO); [intros q I; apply IN; right; exact I|].
    pose proof (IN p (or_introl eq_refl)) as R. destruct (getE_in T (fst p) R) as (t0 & G0 & N0).
    destruct (F2_nth_r _ _ _ _ _ FT N0) as (m & NM & IM). destruct (F2_nth _ _ _ _ _ FU NM) as (row & NR & MR).
    assert (GS : getE sel (fst p) = Ok row). { replace (fst p) with (Z.of_nat (Z.to_nat (fst p))) by lia. apply getE_nat. exact NR. }
    assert (MT : m_time row = t0). { destruct m as [mb ms]. destruct MR as [MR _]. eapply instant_fun; eassumption. }
    pose proof (instant_range _ _ IM) as [IR1 IR2]. assert (WI : word (m_id row)). { pose proof (station_ids _ _ m F (selected_in _ _ _ _ S (nth_error_In _ _ NM))) as WI. destruct m as [mb ms]. destruct MR as (_ & -> & _). exact WI. }
    rewrite <- MT in IR1, IR2. destruct (line_words (zlen (same_time T (fst p))) row (conv (snd p) row) WI IR1 IR2) as (ws & SP & SW).
    assert (CT : zlen (same_time T (fst p)) = times_at T (m_time row)). { rewrite MT. apply same_time_count. unfold getE in G0. destruct (py_get T (fst p)); [injection G0 as ->; reflexivity|discriminate]. }
    exists (smag_out_line (zlen (same_time T (fst p))) row (conv (snd p) row) :: out). constructor; [|exact FO].
    exists m, row, ws. rewrite GS. cbn [bind]. split; [reflexivity|]. split; [exact NM|]. split; [exact MR|]. split; [exact SP|]. rewrite <- CT. exact SW. }
  destruct FL2 as (out & FO). exists out. rewrite (mapE_ok _ l out). 2:{ clear - FO. induction FO as [|p o l out (m & row & ws & E & _) FO IH]; constructor; assumption. }
  cbn [bind]. split; [reflexivity|]. split; [exact PX|]. clear - FO. induction FO as [|p o l out (m & row & ws & _ & E) FO IH]; constructor; [exists m, row, ws; exact E|assumption].
Qed.
End Lines.
