(** Proofs about the input files of DMSP passes and the lines written. *)
From Coq Require Import String Ascii Reals ZArith QArith Qabs Qround List Bool Lia Lqa Lra.
From Flocq Require Import Core.
From Verif Require Import PyBase PyString TimeModel TimeSpec TimeProofs TimeProofs2 CycleModel RangeModel CoordModel CoordSpec CoordProofs FilesModel FilesSpec FilesProofs LoadModel TextSpec TextProofs
  GeneralModel GeneralSpec GeneralProofs GeneralProofs2 OutputModel OutputSpec OutputProofs DmspModel PropertiesDmsp2 SsjModel SsjSpec.
Import ListNotations.
Open Scope string_scope.
Open Scope list_scope.
Open Scope Z_scope.

(** ** Numbers *)
Lemma round_near q : (Qabs (q - inject_Z (round_half_even q)) <= 1 # 2)%Q.
Proof.
  unfold round_half_even. destruct (floor_bounds q) as [A B]. set (f := Qfloor q) in *. set (d := (q - inject_Z f)%Q) in *.
  destruct (Qle_bool (1 # 2) d && (negb (Qeq_bool d (1 # 2)) || Z.odd f)) eqn:E.
  - apply andb_true_iff in E. destruct E as [E _]. apply Qle_bool_iff in E. rewrite inject_Z_plus. unfold d in E. apply Qabs_case; intros _; change (inject_Z 1) with 1%Q in *; Lqa.lra.
  - assert (H : (d <= 1 # 2)%Q).
    { destruct (Qlt_le_dec (1 # 2) d) as [L|L]; [|exact L]. exfalso. rewrite (proj2 (Qle_bool_iff _ _)) in E by (apply Qlt_le_weak; exact L).
      assert (N : Qeq_bool d (1 # 2) = false). { destruct (Qeq_bool d (1 # 2)) eqn:Q; [|reflexivity]. apply Qeq_bool_iff in Q. rewrite Q in L. exfalso. exact (Qlt_irrefl _ L). }
      rewrite N in E. discriminate E. }
    unfold d in H. apply Qabs_case; intros _; Lqa.lra.
Qed.
Lemma fixed3_shows x : showsR x (fixed3 x).
Proof.
  destruct x as [r|]; [|reflexivity]. cbn [showsR fixed3]. set (m := ZnearestE (Rabs r * 1000)).
  assert (N : 0 <= m).
  { unfold m. apply Z.le_trans with (Zfloor (Rabs r * 1000)); [|apply Znearest_ge_floor]. apply Zfloor_lub. pose proof (Rabs_pos r). Lra.lra. }
  assert (H : (Rabs (Rabs r * 1000 - IZR m) <= 1 / 2)%R). { pose proof (Znearest_half (fun x => negb (Z.even x)) (Rabs r * 1000)) as H. fold m in H. Lra.lra. }
  pose proof (fixed_decimal 2 m N) as D. change (10 ^ Z.of_nat 3) with 1000 in D. destruct (Rlt_dec r 0) as [L|L].
  - exists (- m). split; [right; eexists; split; [reflexivity|]; rewrite Z.opp_involutive; exact D|]. rewrite (Rabs_left r L) in H.
    rewrite opp_IZR. replace (r * 1000 - - IZR m)%R with (- (- r * 1000 - IZR m))%R by ring. rewrite Rabs_Ropp. exact H.
  - exists m. split; [left; exact D|]. rewrite (Rabs_pos_eq r) in H by Lra.lra. exact H.
Qed.
Lemma showsR_word x s : showsR x s -> word s.
Proof.
  destruct x as [r|]; cbn [showsR]; [|intros ->; apply wordb_word; reflexivity]. intros (z & [D|(t & -> & D)] & _); [exact (decimal_word _ _ _ D)|]. apply word_cons; [reflexivity|exact (decimal_word _ _ _ D)].
Qed.

(** ** Places *)
Lemma to_xy_spec lat mlt : to_xy lat mlt = Ok (dawnward (place lat mlt), noonward (place lat mlt)).
Proof.
  unfold to_xy. destruct mlt as [m|].
  - cbn [fmap option_map]. destruct (hr2rad_trig (m - 6)) as (t & -> & C & S). cbn [bind]. destruct lat as [l|]; [|reflexivity]. cbn [fmap2 place dawnward noonward option_map point fst snd].
    replace ((m - 6) * PI / 12)%R with (m * PI / 12 - PI / 2)%R in * by field. unfold point. cbn [fst snd]. rewrite C, S, cos_minus, sin_minus, cos_PI2, sin_PI2. do 3 f_equal; ring.
  - cbn [fmap option_map]. assert (E : hr2rad None (2 * PI) = Ok None).
    { unfold hr2rad, fix_range, range_of. cbn [fmap option_map]. destruct (Rle_dec _ _) as [X|X]; [pose proof PI_RGT_0; Lra.lra|].
      destruct (Rle_dec _ _) as [Y|Y]; [pose proof PI_RGT_0; Lra.lra|]. reflexivity. }
    rewrite E. cbn [bind]. destruct lat; reflexivity.
Qed.

(** ** The line of a pass *)
Lemma text_line_blank ws : Forall word ws -> spaced ws (text_line (ws ++ [[]])).
Proof.
  induction ws as [|w ws IH]; intros F.
  - cbn. apply sp_end. constructor; [reflexivity|constructor].
  - inversion F as [|? ? W F']; subst. cbn [app]. rewrite text_line_cons by (destruct ws; discriminate). change (w ++ " "%char :: text_line (ws ++ [[]])) with ([] ++ w ++ " "%char :: text_line (ws ++ [[]])).
    constructor; [constructor|exact W|reflexivity|apply IH; exact F'].
Qed.
Section Ssj.
Context (pf : str -> res num) (aacgm : num -> num -> Z -> fl * fl).
Lemma mid_time_spec day p b : dated day p b -> exists t, mid_time day (Fin (x_sec (s_first p b))) (Fin (x_sec (s_second p b))) = Ok t /\ middle day p b t.
Proof.
  intros D. unfold mid_time. set (a := x_sec (s_first p b)) in *. set (c := x_sec (s_second p b)) in *. set (m := round_half_even _).
  assert (M : middle day p b (day + m)).
  { unfold middle. fold a c. replace (day + m - day) with m by lia. pose proof (round_near ((1 # 2) * (c + a) * inject_Z 1000000)%Q) as N. fold m in N.
    rewrite Qabs_Qminus. setoid_replace (inject_Z 1000000 * ((a + c) / 2))%Q with ((1 # 2) * (c + a) * inject_Z 1000000)%Q; [exact N|]. field. }
  exists (day + m). split; [|exact M]. pose proof (D _ M) as [L U]. unfold add_us. rewrite (proj2 (Z.leb_le _ _) L), (proj2 (Z.ltb_lt _ _) U). reflexivity.
Qed.
Lemma pass_line_spec sat day p b : dated day p b ->
  exists line ws, pass_line aacgm sat day (s_fom p) (Fin (x_sec (s_first p b))) (Fin (x_sec (s_second p b))) (x_lat (s_first p b)) (x_lon (s_first p b)) (x_lat (s_second p b)) (x_lon (s_second p b)) = Ok line /\
    spaced ws line /\ pass_words aacgm b (sat, day, p) ws.
Proof.
  intros D. destruct (mid_time_spec day p b D) as (t & ET & M). pose proof (D _ M) as RNG. unfold pass_line. rewrite ET. cbn [bind]. rewrite !to_xy_spec. cbn [bind].
  set (P := place (fst (aacgm (x_lat (s_first p b)) (x_lon (s_first p b)) t)) (snd (aacgm (x_lat (s_first p b)) (x_lon (s_first p b)) t))).
  set (Q := place (fst (aacgm (x_lat (s_second p b)) (x_lon (s_second p b)) t)) (snd (aacgm (x_lat (s_second p b)) (x_lon (s_second p b)) t))).
  set (sec := t - t mod 1000000).
  assert (WS : whole_second t sec). { unfold whole_second, sec. pose proof (Z.mod_pos_bound t 1000000 ltac:(lia)). split; [lia|]. rewrite Zminus_mod_idemp_r. rewrite Z.sub_diag. reflexivity. }
  assert (RS : 0 <= sec < max_us). { destruct WS as [W1 W2]. split; [|lia]. unfold sec. pose proof (Z.mod_le t 1000000 ltac:(lia) ltac:(lia)). lia. }
  destruct (datetime_text_spec sec RS (proj2 WS)) as (date & tod & ED & CL). unfold second_text. fold sec. rewrite ED.
  set (r := sum2 (fun a b0 : R => (sqrt (a ^ 2 + b0 ^ 2) / 2)%R) _ _).
  assert (ER : r = half_apart P Q).
  { unfold r, sum2. destruct P as [p0|], Q as [q0|]; try reflexivity. cbn [dawnward noonward option_map fmap2 half_apart]. unfold dist. do 3 f_equal. ring. }
  assert (EX : forall f, f = (fun a b0 : R => (1 / 2 * (a + b0))%R) -> sum2 f (dawnward P) (dawnward Q) = dawnward (half_way P Q) /\ sum2 f (noonward P) (noonward Q) = noonward (half_way P Q)).
  { intros f ->. unfold sum2. destruct P as [p0|], Q as [q0|]; split; try reflexivity; cbn [dawnward noonward option_map fmap2 half_way fst snd]; f_equal; field. }
  destruct (EX _ eq_refl) as [E1 E2]. rewrite E1, E2, ER. clear E1 E2 ER EX r.
  destruct (clock_words _ _ _ CL) as [WD WT].
  set (ws := [fmt_d sat; date; tod; fixed3 (half_apart P Q); fixed3 (dawnward (half_way P Q)); fixed3 (noonward (half_way P Q)); fixed 3 (s_fom p);
    fixed3 (dawnward P); fixed3 (noonward P); fixed3 (dawnward Q); fixed3 (noonward Q)] : list str). eexists. exists ws. split; [reflexivity|]. split.
  - match goal with |- spaced _ ?l => assert (EL : l = text_line (ws ++ [[]])) end.
    { unfold ws. cbn [app]. rewrite !text_line_cons by discriminate. rewrite <- !app_assoc. reflexivity. }
    rewrite EL. apply text_line_blank. unfold ws. constructor; [exact (integer_word _ _ (fmt_d_integer sat))|]. constructor; [exact WD|]. constructor; [exact WT|].
    do 3 (constructor; [eapply showsR_word; apply fixed3_shows|]). constructor; [eapply shows_word; apply fixed_shows|]. do 4 (constructor; [eapply showsR_word; apply fixed3_shows|]). constructor.
  - unfold pass_words. exists t, sec. do 11 eexists. split; [reflexivity|]. split; [apply fmt_d_integer|]. split; [exact M|]. split; [exact WS|]. split; [exact CL|]. cbv zeta. unfold place_of. cbv zeta. fold P Q.
    do 3 (split; [apply fixed3_shows|]). split; [apply fixed_shows|]. do 3 (split; [apply fixed3_shows|]). apply fixed3_shows.
Qed.

(** ** Tables in text *)
Lemma split_no c f : ~ In c f -> split c f = [f].
Proof.
  induction f as [|a f IH]; intros N; [reflexivity|]. cbn [split]. destruct (Ascii.eqb_spec a c) as [->|_]; [exfalso; apply N; left; reflexivity|].
  rewrite IH; [reflexivity|]. intros I. apply N. right. exact I.
Qed.
Lemma split_first c f r : ~ In c f -> split c (f ++ c :: r) = f :: split c r.
Proof.
  induction f as [|a f IH]; intros N; cbn [app split]; [rewrite Ascii.eqb_refl; reflexivity|]. destruct (Ascii.eqb_spec a c) as [->|_]; [exfalso; apply N; left; reflexivity|].
  rewrite IH; [reflexivity|]. intros I. apply N. right. exact I.
Qed.
Lemma split_commas fs : fs <> [] -> Forall (fun f => ~ In ","%char f) fs -> split "," (commas fs) = fs.
Proof.
  induction fs as [|f [|g fs] IH]; intros N F; [contradiction| |]; inversion F as [|? ? F1 F2]; subst.
  - apply split_no. exact F1.
  - change (commas (f :: g :: fs)) with (f ++ ","%char :: commas (g :: fs)). rewrite split_first by exact F1. rewrite IH; [reflexivity|discriminate|exact F2].
Qed.
Lemma commas_free c fs : c <> ","%char -> Forall (fun f => ~ In c f) fs -> ~ In c (commas fs).
Proof.
  intros NC. induction fs as [|f [|g fs] IH]; intros F I; [destruct I| |]; inversion F as [|? ? F1 F2]; subst; [contradiction|].
  change (commas (f :: g :: fs)) with (f ++ ","%char :: commas (g :: fs)) in I. apply in_app_or in I. destruct I as [I|[I|I]]; [contradiction|congruence|exact (IH F2 I)].
Qed.
Lemma upto_free c s r : ~ In c s -> (r = [] \/ exists t, r = c :: t) -> upto c (s ++ r) = s.
Proof.
  intros N R. induction s as [|a s IH]; cbn [app upto].
  - destruct R as [->|(t & ->)]; [reflexivity|]. cbn. rewrite Ascii.eqb_refl. reflexivity.
  - destruct (Ascii.eqb_spec a c) as [->|_]; [exfalso; apply N; left; reflexivity|]. rewrite IH; [reflexivity|]. intros I. apply N. right. exact I.
Qed.
Lemma clean_all fs : Forall clean fs -> Forall (fun f => ~ In ","%char f) fs /\ Forall (fun f => ~ In "#"%char f) fs /\ Forall (fun f => ~ In newl f) fs /\ Forall (fun f => ~ In carriage f) fs.
Proof. intros F. repeat split; (eapply Forall_impl; [|exact F]); intros f (A & B & C & D); assumption. Qed.
Lemma header_spec cs l data : Forall (fun l => exists t, l = "#"%char :: t) cs -> (forall t, l <> "#"%char :: t) -> header_of (cs ++ l :: data) = (l, data).
Proof.
  intros F N. induction F as [|c cs (t & ->) F IH]; cbn [app header_of].
  - destruct l as [|a l]; [reflexivity|]. destruct (Ascii.eqb_spec a "#") as [->|_]; [exfalso; exact (N l eq_refl)|reflexivity].
  - cbn [Ascii.eqb Bool.eqb]. exact IH.
Qed.
Lemma names_spec names e : names <> [] -> Forall clean names -> e = [] \/ e = [newl] -> names_of_header (commas names ++ e) = names.
Proof.
  intros N C E. destruct (clean_all _ C) as (C1 & _ & C3 & _). unfold names_of_header. rewrite upto_free.
  - apply split_commas; assumption.
  - change newline with newl. apply commas_free; [discriminate|exact C3].
  - destruct E as [->| ->]; [left; reflexivity|right; exists []; reflexivity].
Qed.
Lemma ends_no s : ~ In newl s -> ~ In carriage s -> forall c, In c s -> is_end c = false.
Proof.
  intros A B c I. unfold is_end. change newline with newl. change (ascii_of_nat 13) with carriage.
  destruct (Ascii.eqb_spec c newl) as [->|_]; [contradiction|]. destruct (Ascii.eqb_spec c carriage) as [->|_]; [contradiction|]. reflexivity.
Qed.
Lemma drop_while_no f (s : str) : (forall c, In c s -> f c = false) -> drop_while f s = s.
Proof. destruct s as [|c s]; intros H; [reflexivity|]. cbn [drop_while]. rewrite (H c (or_introl eq_refl)). reflexivity. Qed.
Lemma drop_while_all f (e s : str) : (forall c, In c e -> f c = true) -> drop_while f (e ++ s) = drop_while f s.
Proof. induction e as [|c e IH]; intros H; [reflexivity|]. cbn [app drop_while]. rewrite (H c (or_introl eq_refl)). apply IH. intros d I. apply H. right. exact I. Qed.
Lemma line_end_ends e : line_end e -> forall c, In c e -> is_end c = true.
Proof. intros [->|[->| ->]] c I; [destruct I|destruct I as [<-|[]]; reflexivity|destruct I as [<-|[<-|[]]]; reflexivity]. Qed.
Lemma trim_spec s e : ~ In newl s -> ~ In carriage s -> line_end e -> trim_ends (s ++ e) = s.
Proof.
  intros A B E. pose proof (ends_no s A B) as N. pose proof (line_end_ends e E) as L. unfold trim_ends. destruct s as [|c s].
  - cbn [app]. pose proof (drop_while_all is_end e [] L) as D. rewrite app_nil_r in D. rewrite D. reflexivity.
  - assert (D : drop_while is_end ((c :: s) ++ e) = (c :: s) ++ e). { cbn [app drop_while]. rewrite (N c (or_introl eq_refl)). reflexivity. }
    rewrite D, rev_app_distr, drop_while_all by (intros x I; apply L, in_rev, I). rewrite drop_while_no by (intros x I; apply N, in_rev, I). apply rev_involutive.
Qed.
Lemma end_no_hash e : line_end e -> ~ In "#"%char e.
Proof. intros E I. apply (line_end_ends e E) in I. discriminate I. Qed.
Lemma fields_spec fs e c : fs <> [] -> Forall clean fs -> Forall (fun f => f <> []) fs -> line_end e -> (c = [] \/ exists t, c = "#"%char :: t) -> fields (commas fs ++ e ++ c) = fs.
Proof.
  intros N C NE E H. destruct (clean_all _ C) as (C1 & C2 & C3 & C4). unfold fields. rewrite app_assoc. change (s2l "#") with [hash]. rewrite before_hash; [|intros I; apply in_app_or in I; destruct I as [I|I]; [revert I; apply commas_free; [discriminate|exact C2]|exact (end_no_hash e E I)]|exact H].
  rewrite trim_spec; [|apply commas_free; [discriminate|exact C3]|apply commas_free; [discriminate|exact C4]|exact E].
  destruct (commas fs) as [|x s] eqn:X.
  - exfalso. destruct fs as [|f [|g fs]]; [contradiction| |]; inversion NE as [|? ? NF _]; subst; [exact (NF X)|]. change (commas (f :: g :: fs)) with (f ++ ","%char :: commas (g :: fs)) in X. destruct f; discriminate X.
  - rewrite <- X. apply split_commas; assumption.
Qed.
Lemma skip_spec e c : line_end e -> (c = [] \/ exists t, c = "#"%char :: t) -> fields (e ++ c) = [].
Proof.
  intros E H. unfold fields. change (s2l "#") with [hash]. rewrite before_hash; [|exact (end_no_hash e E)|exact H]. change e with ([] ++ e). rewrite trim_spec; [reflexivity|intros []|intros []|exact E].
Qed.
Lemma lstrip_blanks a s : blank a -> lstrip (a ++ s) = lstrip s.
Proof. induction 1 as [|c a C B IH]; [reflexivity|]. cbn [app lstrip]. rewrite C. exact IH. Qed.
Lemma lstrip_word w s : word w -> lstrip (w ++ s) = w ++ s.
Proof. intros [N F]. destruct F as [|c w C F]; [contradiction|]. cbn [app lstrip]. rewrite C. reflexivity. Qed.
Lemma strip_field a w b : blank a -> word w -> blank b -> strip (a ++ w ++ b) = w.
Proof.
  intros A W B. unfold strip. rewrite lstrip_blanks by exact A. rewrite lstrip_word by exact W. rewrite rev_app_distr, lstrip_blanks by (apply Forall_rev, B).
  rewrite <- (app_nil_r (rev w)), lstrip_word; [rewrite app_nil_r; apply rev_involutive|]. destruct W as [N F]. split; [|apply Forall_rev, F]. intros X. apply N. rewrite <- (rev_involutive w), X. reflexivity.
Qed.
Lemma omapE_F2 {A B} (f : A -> res B) (R : A -> B -> Prop) l r : (forall a b, R a b -> f a = Ok b) -> Forall2 R l r -> OutputModel.mapE f l = Ok r.
Proof. intros H. induction 1 as [|a b l r R1 R2 IH]; [reflexivity|]. cbn [OutputModel.mapE]. rewrite (H _ _ R1). cbn [bind]. rewrite IH. reflexivity. Qed.
(** The texts of the rows. *)
Lemma csv_rows rows ls : csv_data pf rows ls -> exists texts, filter (fun r : list str => match r with [] => false | _ => true end) (map fields ls) = texts /\ Forall2 (Forall2 (number_field pf)) texts rows.
Proof.
  induction 1 as [|e c rows ls E H D (texts & IH1 & IH2)|fs row e c rows ls N F E H D (texts & IH1 & IH2)]; cbn [map filter].
  - exists []. split; [reflexivity|constructor].
  - rewrite (skip_spec e c E H). eauto.
  - assert (CL : Forall clean fs) by (clear - F; induction F as [|f v fs row [C _] F IH]; constructor; assumption).
    assert (NE : Forall (fun f => f <> []) fs).
    { clear - F. induction F as [|f v fs row [_ (a & w & b & -> & _ & [W _] & _)] F IH]; constructor; [|exact IH]. intros X. apply app_eq_nil in X. destruct X as [_ X]. apply app_eq_nil in X. tauto. }
    rewrite (fields_spec fs e c N CL NE E H). destruct fs as [|f fs]; [contradiction|]. exists ((f :: fs) :: texts). rewrite IH1. split; [reflexivity|]. constructor; assumption.
Qed.
Lemma loadtxt_spec n rows ls : csv_data pf rows ls -> same_width n rows -> loadtxt pf ls = Ok rows.
Proof.
  intros D W. destruct (csv_rows _ _ D) as (texts & E & F). unfold loadtxt. rewrite E. cbv zeta.
  assert (W2 : Forall (fun r : list str => length r = n) texts).
  { clear - F W. revert W. induction F as [|t r texts rows F1 F2 IH]; intros W; constructor; inversion W; subst; [|apply IH; assumption]. clear - F1. induction F1; cbn; congruence. }
  destruct texts as [|r0 texts]; [inversion F; reflexivity|]. assert (B : forallb (fun r : list str => (length r =? length r0)%nat) (r0 :: texts) = true).
  { apply forallb_forall. intros r I. rewrite Forall_forall in W2. rewrite (W2 r I), (W2 r0 (or_introl eq_refl)). apply Nat.eqb_refl. }
  rewrite B. eapply omapE_F2; [|exact F]. intros t r FR. eapply omapE_F2; [|exact FR]. intros f v (_ & a & w & b & -> & A & WD & BB & P). rewrite strip_field by assumption. exact P.
Qed.
Lemma csv_loads names rows lines : csv_text pf names rows lines -> forall n, same_width n rows ->
  exists head rest, header_of lines = (head, rest) /\ names_of_header head = names /\ loadtxt pf rest = Ok rows.
Proof.
  intros (cs & e & data & -> & C & N & CL & E & D) n W. exists (commas names ++ e), data. split; [|split; [apply names_spec; assumption|eapply loadtxt_spec; eassumption]].
  apply header_spec; [exact C|]. intros t X. destruct (clean_all _ CL) as (_ & C2 & _). assert (I : In "#"%char (commas names ++ e)) by (rewrite X; left; reflexivity). apply in_app_or in I. destruct I as [I|I].
  - revert I. apply commas_free; [discriminate|exact C2].
  - destruct E as [->| ->]; [destruct I|destruct I as [I|[]]; discriminate I].
Qed.

(** ** The files *)
Lemma name_parts_spec name sat day : ssj_name name sat day -> exists p0 p1 p2 p3 p4 rest, name_parts name = p0 :: p1 :: p2 :: p3 :: p4 :: rest /\ py_int p0 = Ok sat /\ sp_time (strptime p3 "%Y%m%d") = Ok day.
Proof.
  intros (dir & ids & p1 & p2 & d & v & rest & H). cbv zeta in H. set (t := FilesSpec.joined (ids :: p1 :: p2 :: d :: v :: rest)) in *. destruct H as (-> & PL & NS & ND & I & CD).
  exists ids, p1, p2, d, v, rest. split; [|split; [exact (py_int_integer _ _ I)|exact (compact_read _ _ CD)]].
  unfold name_parts. change (s2l "/dmsp-f" ++ t) with (s2l "/" ++ s2l "dmsp-f" ++ t).
  assert (B : basename (dir ++ s2l "/" ++ s2l "dmsp-f" ++ t) = s2l "dmsp-f" ++ t).
  { apply basename_app. intros J. apply in_app_or in J. destruct J as [J|J]; [cbn in J; intuition discriminate|exact (NS J)]. }
  rewrite B. cbv zeta.
  assert (A : after_last (length (s2l "dmsp-f" ++ t)) "dmsp-f" (s2l "dmsp-f" ++ t) = t).
  { change (length (s2l "dmsp-f" ++ t)) with (S (5 + length t)). cbn [after_last].
    assert (F0 : find (s2l "dmsp-f") (s2l "dmsp-f" ++ t) = Some 0%nat) by (destruct t; reflexivity). rewrite F0.
    change (skipn (0 + length (s2l "dmsp-f")) (s2l "dmsp-f" ++ t)) with t.
    assert (F1 : find (s2l "dmsp-f") t = None).
    { destruct (find (s2l "dmsp-f") t) eqn:F; [|reflexivity]. exfalso. apply ND. apply contains_spec. unfold contains. rewrite F. reflexivity. }
    destruct (5 + length t)%nat; [reflexivity|]. cbn [after_last]. rewrite F1. reflexivity. }
  rewrite A. unfold t. apply split_joined; [discriminate|exact PL].
Qed.
Lemma valueE_spec names row name v : NoDup names -> in_column names row name v -> valueE names row (s2l name) = Ok v.
Proof.
  intros N (i & A & B). unfold valueE. rewrite (index_first (s2l name) names i A).
  - cbn [bind]. apply getE_nat. exact B.
  - intros m x L E ->. rewrite NoDup_nth_error in N. assert (m = i); [|lia]. apply N; [apply nth_error_Some; congruence|congruence].
Qed.
Lemma col_name_spec what b i : col_name what b i = s2l (what ++ " " ++ bname b ++ i)%string.
Proof. assert (A : forall a c, s2l (a ++ c)%string = s2l a ++ s2l c) by (induction a as [|x a IH]; intros c; cbn; [reflexivity|f_equal; apply IH]). unfold col_name. rewrite !A. reflexivity. Qed.
Lemma hemi_key_spec q h : h = 1 \/ h = -1 -> (q == inject_Z h)%Q -> hemi_key (Fin q) = Ok h.
Proof.
  intros [->| ->] E; unfold hemi_key.
  - rewrite (proj2 (Qeq_bool_iff q 1) E). reflexivity.
  - replace (Qeq_bool q 1) with false; [rewrite (proj2 (Qeq_bool_iff q (-1)) E); reflexivity|]. destruct (Qeq_bool q 1) eqn:X; [|reflexivity]. apply Qeq_bool_iff in X. rewrite E in X. discriminate X.
Qed.
(** An event for a pass. *)
Definition event_of (q : Z * Z * ssj_pass) (b : bnd) (e : event) : Prop :=
  exists line ws, e = (s_hemi (snd q), b, line) /\ spaced ws line /\ pass_words aacgm b q ws.
Lemma write_bnd_spec sat day names row p b : NoDup names -> row_of names row p -> dated day p b ->
  exists e, write_bnd aacgm sat day names row b = Ok e /\ event_of (sat, day, p) b e.
Proof.
  intros N (H & (q & HQ & EQ') & HF & HB) D. destruct (HB b) as (B1 & B2 & B3 & B4 & B5 & B6). cbv beta in *. unfold write_bnd. rewrite !col_name_spec.
  rewrite (valueE_spec _ _ _ _ N B1). cbn [bind]. rewrite (valueE_spec _ _ _ _ N B2). cbn [bind]. rewrite (valueE_spec _ _ _ _ N B3). cbn [bind]. rewrite (valueE_spec _ _ _ _ N B4). cbn [bind].
  rewrite (valueE_spec _ _ _ _ N B5). cbn [bind]. rewrite (valueE_spec _ _ _ _ N B6). cbn [bind]. rewrite (valueE_spec _ _ _ _ N HQ). cbn [bind]. rewrite (valueE_spec _ _ _ _ N HF). cbn [bind].
  destruct (pass_line_spec sat day p b D) as (line & ws & E & SP & PW). rewrite E. cbn [bind]. rewrite (hemi_key_spec _ _ H EQ'). cbn [bind].
  eexists. split; [reflexivity|]. exists line, ws. auto.
Qed.
Inductive events_of : list (Z * Z * ssj_pass) -> list event -> Prop :=
| ev_nil : events_of [] []
| ev_cons q ps a b es : event_of q PO a -> event_of q EQ b -> events_of ps es -> events_of (q :: ps) (a :: b :: es).
Lemma events_app ps es ps' es' : events_of ps es -> events_of ps' es' -> events_of (ps ++ ps') (es ++ es').
Proof. intros H H'. induction H; [exact H'|]. cbn [app]. constructor; assumption. Qed.
Definition all_dated (ps : list (Z * Z * ssj_pass)) : Prop := forall sat day p b, In (sat, day, p) ps -> dated day p b.
Lemma rows_written sat day names rows ps : NoDup names -> Forall2 (row_of names) rows ps -> all_dated (map (fun p => (sat, day, p)) ps) ->
  exists es, OutputModel.mapE (write_row aacgm sat day names) rows = Ok es /\ events_of (map (fun p => (sat, day, p)) ps) (concat es).
Proof.
  intros N F. induction F as [|row p rows ps R F IH]; intros D; [exists []; split; [reflexivity|constructor]|].
  destruct IH as (es & E & V). { intros sat' day' p' b I. apply (D sat'). right. exact I. }
  destruct (write_bnd_spec sat day names row p PO N R (D sat day p PO (or_introl eq_refl))) as (a & EA & VA). destruct (write_bnd_spec sat day names row p EQ N R (D sat day p EQ (or_introl eq_refl))) as (c & EC & VC).
  exists ([a; c] :: es). cbn [OutputModel.mapE]. unfold write_row at 1. rewrite EA. cbn [bind]. rewrite EC. cbn [bind]. rewrite E. cbn [bind]. split; [reflexivity|]. cbn [concat app map]. constructor; assumption.
Qed.
Lemma format_good f d : passes_file pf f d -> all_dated (map (fun p => (f_sat d, f_day d, p)) (f_passes d)) ->
  exists es, format_file pf aacgm (fst f) (snd f) = Ok (Some es) /\ events_of (map (fun p => (f_sat d, f_day d, p)) (f_passes d)) es.
Proof.
  intros (NM & names & rows & T & N & L1 & L2 & W & F) D. destruct (name_parts_spec _ _ _ NM) as (p0 & p1 & p2 & p3 & p4 & rest & EP & EI & ED). unfold format_file. rewrite EP. cbn [part nth_error bind]. rewrite EI. cbn [bind]. rewrite ED. cbn [bind].
  destruct (csv_loads _ _ _ T _ W) as (head & rst & EH & EN & EL). rewrite EH, EN, EL. cbn [bind].
  assert (TD : two_dims rows (length names) = true).
  { destruct rows as [|r0 [|r1 rows]]; cbn [length] in L2; try lia. inversion W as [|? ? W0 _]; subst. cbn [two_dims]. rewrite W0. rewrite (proj2 (Nat.leb_le _ _) L1), Nat.eqb_refl. reflexivity. }
  rewrite TD. destruct (rows_written (f_sat d) (f_day d) names rows _ N F D) as (es & E & V). rewrite E. cbn [bind]. eauto.
Qed.
Lemma format_bad f : bad_file pf f -> format_file pf aacgm (fst f) (snd f) = Ok None.
Proof.
  intros ((sat & day & NM) & names & rows & n & T & W & B). destruct (name_parts_spec _ _ _ NM) as (p0 & p1 & p2 & p3 & p4 & rest & EP & EI & ED). unfold format_file. rewrite EP. cbn [part nth_error bind]. rewrite EI. cbn [bind]. rewrite ED. cbn [bind].
  destruct (csv_loads _ _ _ T _ W) as (head & rst & EH & EN & EL). rewrite EH, EN, EL. cbn [bind].
  assert (TD : two_dims rows (length names) = false).
  { destruct rows as [|r0 [|r1 rows]]; try reflexivity. destruct B as [B|B]; [cbn [length] in B; lia|]. inversion W as [|? ? W0 _]; subst. cbn [two_dims]. rewrite (proj2 (Nat.eqb_neq _ _) B). apply andb_false_r. }
  rewrite TD. reflexivity.
Qed.
Lemma format_all files ps bad : all_files pf files ps bad -> all_dated ps -> exists es, format_files pf aacgm files = Ok (es, bad) /\ events_of ps es.
Proof.
  induction 1 as [|f d fs ps bad G A IH|f fs ps bad B A IH]; intros D.
  - exists []. split; [reflexivity|constructor].
  - destruct (format_good f d G) as (e1 & E1 & V1). { intros sat day p b I. apply (D sat). apply in_or_app. left. exact I. }
    destruct IH as (e2 & E2 & V2). { intros sat day p b I. apply (D sat). apply in_or_app. right. exact I. }
    exists (e1 ++ e2). destruct f as [name lines]. cbn [format_files fst snd] in *. rewrite E1. cbn [bind]. rewrite E2. cbn [bind fst snd]. split; [reflexivity|apply events_app; assumption].
  - destruct (IH D) as (es & E & V). exists es. pose proof (format_bad f B) as E0. destruct f as [name lines]. cbn [format_files fst snd] in *. rewrite E0. cbn [bind]. rewrite E. cbn [bind fst snd]. auto.
Qed.
Lemma named_parts f : (exists sat day, ssj_name (fst f) sat day) -> exists p0 p1 p2 p3 p4 rest, name_parts (fst (f : str * list str)) = p0 :: p1 :: p2 :: p3 :: p4 :: rest.
Proof. intros (sat & day & H). destruct (name_parts_spec _ _ _ H) as (p0 & p1 & p2 & p3 & p4 & rest & E & _). eauto 10. Qed.
Lemma all_named files ps bad : all_files pf files ps bad -> Forall (fun f => exists sat day, ssj_name (fst f) sat day) files.
Proof. induction 1 as [|f d fs ps bad G A IH|f fs ps bad B A IH]; constructor; try assumption; [destruct G as (G & _); eauto|destruct B as (B & _); exact B]. Qed.
Lemma format_ssj_spec files ps bad : all_files pf files ps bad -> files <> [] -> all_dated ps -> exists es, format_ssj pf aacgm files = Ok (es, bad) /\ events_of ps es.
Proof.
  intros A NE D. destruct (format_all _ _ _ A D) as (es & E & V). exists es. split; [|exact V]. unfold format_ssj.
  assert (O : exists s, out_name (map fst files) (s2l "north") (s2l ".ocb") = Ok s).
  { pose proof (all_named _ _ _ A) as F. destruct files as [|f0 fs]; [contradiction|]. unfold out_name. cbn [map].
    assert (L : exists f, In f (f0 :: fs) /\ last (fst f0 :: map fst fs) (fst f0) = fst f).
    { assert (I : In (last (fst f0 :: map fst fs) (fst f0)) (map fst (f0 :: fs))) by (apply in_last). apply in_map_iff in I. destruct I as (f & X & I). exists f. auto. }
    destruct L as (f & I & L). rewrite L. rewrite Forall_forall in F. destruct (named_parts f0 (F f0 (or_introl eq_refl))) as (a0 & a1 & a2 & a3 & a4 & ar & EA).
    destruct (named_parts f (F f I)) as (b0 & b1 & b2 & b3 & b4 & br & EB). rewrite EA, EB. cbn [part nth_error bind]. eauto. }
  destruct O as [s O]. rewrite O. cbn [bind]. exact E.
Qed.
(** The lines of one file. *)
Lemma file_lines h b ps es : events_of ps es -> exists kept, kept_of (fun q => s_hemi (snd q) = h) ps kept /\
  exists lines, file_of h b es = ssj_header :: lines /\ Forall2 (fun q l => exists ws, spaced ws l /\ pass_words aacgm b q ws) kept lines.
Proof.
  unfold file_of. induction 1 as [|q ps x y es X Y V (kept & K & lines & L & F)].
  - exists []. split; [constructor|]. exists []. split; [reflexivity|constructor].
  - injection L as L. destruct X as (l1 & w1 & -> & S1 & P1), Y as (l2 & w2 & -> & S2 & P2). cbn [filter fst snd]. destruct (Z.eq_dec (s_hemi (snd q)) h) as [E|N].
    + exists (q :: kept). split; [constructor; assumption|]. rewrite E, Z.eqb_refl. destruct b; cbn [andb bnd_eqb map snd]; rewrite L; eexists; (split; [reflexivity|]); (constructor; [eauto|exact F]).
    + exists kept. split; [constructor 3; assumption|]. rewrite (proj2 (Z.eqb_neq _ _) N). cbn [andb]. rewrite L. eauto.
Qed.
End Ssj.
