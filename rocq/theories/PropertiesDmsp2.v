(** C61, C100-C105: the circle of a pass, downloading and formatting DMSP files. *)
From Coq Require Import String Ascii Reals Rgeom ZArith List Bool Lia Lra.
From Verif Require Import PyBase PyString TimeModel TimeSpec TimeProofs TimeProofs2 TimeProofs3 TimeProofs4 RangeModel RangeProofs CoordModel CoordSpec CoordProofs
  FilesModel FilesSpec FilesProofs PropertiesFiles DmspModel PropertiesCoord PropertiesDmsp.
Import ListNotations.
Open Scope string_scope.
Open Scope list_scope.
Local Open Scope R_scope.

(** ** C61 *)
Definition midpoint (p q : R * R) : R * R := ((fst p + fst q) / 2, (snd p + snd q) / 2)%R.
(** The record of a pass as OCBoundary loads it. *)
Definition loaded_pass (r x y : R) (f : fl -> fl) : rec := mkRec r (fst (centre_of_xy x y)) (snd (centre_of_xy x y)) f.
Lemma loaded_centre r x y f : centre (loaded_pass r x y f) = (- y, x)%R.
Proof. pose proof (C45_cartesian_centre x y r f) as C. unfold loaded_pass. destruct (centre_of_xy x y) as [rc pc]. cbn [fst snd]. exact (proj2 (proj2 C)). Qed.
Lemma crossing_spec lat mlt : exists x y, crossing_xy lat mlt = Ok (x, y) /\ point (90 - Rabs lat) mlt = (- y, x)%R.
Proof.
  unfold crossing_xy. destruct (hr2rad_trig (mlt - 6)) as (t & -> & C & S). cbn [bind]. eexists. eexists. split; [reflexivity|].
  unfold point. replace ((mlt - 6) * PI / 12)%R with (mlt * PI / 12 - PI / 2)%R in * by field.
  rewrite C, S, cos_minus, sin_minus, cos_PI2, sin_PI2. f_equal; ring.
Qed.
Theorem C61_circle_through_crossings :
  forall lat1 mlt1 lat2 mlt2 f, exists p, pass_circle lat1 mlt1 lat2 mlt2 = Ok p /\
    let P1 := point (90 - Rabs lat1) mlt1 in
    let P2 := point (90 - Rabs lat2) mlt2 in
    let b := loaded_pass (p_r p) (p_x p) (p_y p) f in
    centre b = midpoint P1 P2 /\ dist P1 (centre b) = p_r p /\ dist P2 (centre b) = p_r p /\
    (* the crossings are written in the same axes *)
    P1 = (- p_y1 p, p_x1 p)%R /\ P2 = (- p_y2 p, p_x2 p)%R.
Proof.
  intros lat1 mlt1 lat2 mlt2 f. unfold pass_circle. destruct (crossing_spec lat1 mlt1) as (x1 & y1 & -> & E1), (crossing_spec lat2 mlt2) as (x2 & y2 & -> & E2).
  cbn [bind]. eexists. split; [reflexivity|]. cbn [p_r p_x p_y p_x1 p_y1 p_x2 p_y2]. cbv zeta. rewrite loaded_centre, E1, E2.
  assert (H : forall a b, sqrt (a ^ 2 + b ^ 2) / 2 = sqrt ((a / 2) ^ 2 + (b / 2) ^ 2)).
  { intros a b. replace ((a / 2) ^ 2 + (b / 2) ^ 2)%R with ((a ^ 2 + b ^ 2) / (2 * 2))%R by field.
    rewrite sqrt_div_alt by lra. rewrite sqrt_square by lra. reflexivity. }
  rewrite H. unfold midpoint, dist. cbn [fst snd]. split; [f_equal; field|].
  split; [f_equal; field|]. split; [f_equal; field|]. auto.
Qed.
(** With the values rounded to three decimals the crossings stay within 0.00125 degrees of the
    circle. *)
Theorem C61_rounded :
  forall lat1 mlt1 lat2 mlt2 f p r x y, pass_circle lat1 mlt1 lat2 mlt2 = Ok p ->
    (Rabs (r - p_r p) <= 0.0005 -> Rabs (x - p_x p) <= 0.0005 -> Rabs (y - p_y p) <= 0.0005 ->
     let b := loaded_pass r x y f in
     Rabs (dist (point (90 - Rabs lat1) mlt1) (centre b) - r) <= 0.00125 /\
     Rabs (dist (point (90 - Rabs lat2) mlt2) (centre b) - r) <= 0.00125)%R.
Proof.
  intros lat1 mlt1 lat2 mlt2 f p r x y E DR DX DY. cbv zeta.
  destruct (C61_circle_through_crossings lat1 mlt1 lat2 mlt2 f) as (p' & E' & _ & D1 & D2 & _). rewrite E in E'. injection E' as <-.
  rewrite loaded_centre in *.
  assert (T : forall P Q S, (dist P Q <= dist P S + dist S Q)%R).
  { intros [a b] [c d] [e g]. unfold dist. cbn [fst snd]. pose proof (triangle a b c d e g) as T. unfold dist_euc, Rsqr in T.
    replace ((a - c) ^ 2 + (b - d) ^ 2)%R with ((a - c) * (a - c) + (b - d) * (b - d))%R by ring.
    replace ((a - e) ^ 2 + (b - g) ^ 2)%R with ((a - e) * (a - e) + (b - g) * (b - g))%R by ring.
    replace ((e - c) ^ 2 + (g - d) ^ 2)%R with ((e - c) * (e - c) + (g - d) * (g - d))%R by ring. exact T. }
  assert (SY : forall P Q, dist P Q = dist Q P) by (intros P Q; unfold dist; f_equal; ring).
  assert (CC : (dist (- p_y p, p_x p) (- y, x) <= 0.00075)%R).
  { unfold dist. cbn [fst snd]. rewrite <- (sqrt_square 0.00075) by lra. apply sqrt_le_1_alt.
    assert (A : forall a c, (Rabs (a - c) <= 0.0005 -> (c - a) ^ 2 <= 0.00000025)%R).
    { intros a c H. assert (HH : (-0.0005 <= a - c <= 0.0005)%R) by (unfold Rabs in H; destruct (Rcase_abs (a - c)); lra).
      replace ((c - a) ^ 2)%R with ((a - c) * (a - c))%R by ring. nra. }
    pose proof (A _ _ DX). pose proof (A _ _ DY). replace ((- p_y p - - y) ^ 2)%R with ((p_y p - y) ^ 2)%R by ring. lra. }
  assert (F : forall P, dist P (- p_y p, p_x p) = p_r p -> (Rabs (dist P (- y, x) - r) <= 0.00125)%R).
  { intros P DP. pose proof (T P (- y, x)%R (- p_y p, p_x p)%R) as T1. pose proof (T P (- p_y p, p_x p)%R (- y, x)%R) as T2.
    rewrite (SY (- y, x)%R) in T2. rewrite DP in *. apply Rabs_le. unfold Rabs in DR. destruct (Rcase_abs (r - p_r p)) in DR; lra. }
  split; apply F; assumption.
Qed.
Example C61_case : exists p, pass_circle 70 6 80 18 = Ok p.
Proof. destruct (C61_circle_through_crossings 70 6 80 18 (fun _ => None)) as (p & E & _). eauto. Qed.
Print Assumptions C61_circle_through_crossings.
Print Assumptions C61_rounded.
Local Open Scope Z_scope.

(** ** C100 *)
Definition arguments_ok (sat_nums : option (list Z)) (dir_ok : bool) : Prop :=
  dir_ok = true /\ forall l, sat_nums = Some l -> forall s, In s l -> In s [16; 17; 18].
Lemma sats_ok sat_nums dir_ok : arguments_ok sat_nums dir_ok ->
  forallb (fun s => existsb (Z.eqb s) [16; 17; 18]) match sat_nums with None => [16; 17; 18] | Some l => l end = true.
Proof.
  intros [_ H]. destruct sat_nums as [l|]; [|reflexivity]. apply forallb_forall. intros s I. specialize (H l eq_refl s I).
  apply existsb_exists. exists s. split; [exact H|apply Z.eqb_refl].
Qed.
Theorem C100_streams_restored_partial :
  (* missing: downloads that raise, and output redirected by the caller, refuted below *)
  forall fuel w dir_ok dl zip now stime etime sats rm w' r,
    fetch fuel w dir_ok dl zip now stime etime sats rm = (w', r) -> w_stdout w = Console -> (forall e, dl <> DRaise e) ->
    w_stdout w' = Console.
Proof.
  intros fuel w dir_ok dl zip now st et sats rm w' r E C N. unfold fetch in E.
  destruct (negb (forallb _ _)); [injection E as <- _; exact C|]. destruct (negb dir_ok); [injection E as <- _; exact C|].
  destruct dl as [e|msg created]; [exfalso; exact (N e eq_refl)|]. destruct (negb (contains _ _) && _); [injection E as <- _; reflexivity|].
  destruct (negb (member "md5sums.txt" _)); [injection E as <- _; reflexivity|]. destruct (after_word _ _) as [link|]; [|injection E as <- _; reflexivity].
  destruct (archive_of _ _ _) as [a|]; [|injection E as <- _; reflexivity]. destruct (negb (member a _)); [injection E as <- _; reflexivity|].
  destruct (extract _ _ _ _) as [fs [o|]]; injection E as <- _; reflexivity.
Qed.
Theorem C100_failed_download_refuted :
  forall fuel w dir_ok e zip now stime etime sats rm, arguments_ok sats dir_ok ->
    w_stdout (fst (fetch fuel w dir_ok (DRaise e) zip now stime etime sats rm)) = Captured.
Proof. intros fuel w dir_ok e zip now st et sats rm A. unfold fetch. rewrite (sats_ok _ _ A). destruct A as [-> _]. reflexivity. Qed.
Theorem C100_redirected_refuted :
  forall fuel fs dir_ok msg created zip now stime etime sats rm, arguments_ok sats dir_ok ->
    w_stdout (fst (fetch fuel (mkWorld Other fs) dir_ok (DDone msg created) zip now stime etime sats rm)) = Console.
Proof.
  intros fuel fs dir_ok msg created zip now st et sats rm A. unfold fetch. rewrite (sats_ok _ _ A). destruct A as [-> _]. cbn [negb].
  destruct (negb (contains _ _) && _); [reflexivity|].
  destruct (negb (member "md5sums.txt" _)); [reflexivity|]. destruct (after_word _ _) as [link|]; [|reflexivity].
  destruct (archive_of _ _ _) as [a|]; [|reflexivity]. destruct (negb (member a _)); [reflexivity|].
  destruct (extract _ _ _ _) as [g [o|]]; reflexivity.
Qed.
Example C100_case : arguments_ok (Some [16; 18]) true /\ arguments_ok None true.
Proof. split; (split; [reflexivity|]); intros l E; [injection E as <-; intros s [<-|[<-|[]]]; cbn; auto|discriminate]. Qed.
Print Assumptions C100_streams_restored_partial.
Print Assumptions C100_failed_download_refuted.
Print Assumptions C100_redirected_refuted.

(** ** C101 *)
Definition has_zip (s : str) : Prop := exists a b, s = a ++ s2l ".zip" ++ b.
Definition no_slash (s : str) : Prop := ~ In "/"%char s.
(** A path without the extension is searched forever. *)
Lemma take_drop f s : s = take_while f s ++ drop_while f s.
Proof. induction s as [|c s IH]; [reflexivity|]. cbn. destruct (f c); [cbn; congruence|reflexivity]. Qed.
Lemma base_head p : p = rev (drop_while (fun c => negb (Ascii.eqb c slash)) (rev p)) ++ basename p.
Proof. unfold basename. rewrite <- rev_app_distr, <- take_drop, rev_involutive. reflexivity. Qed.
Lemma dirname_prefix p : exists r, p = dirname p ++ r.
Proof.
  pose proof (base_head p) as B. set (h := rev (drop_while (fun c => negb (Ascii.eqb c slash)) (rev p))) in *.
  unfold dirname. fold h. assert (H : h = rev (drop_while (Ascii.eqb slash) (rev h)) ++ rev (take_while (Ascii.eqb slash) (rev h))).
  { rewrite <- rev_app_distr, <- take_drop, rev_involutive. reflexivity. }
  destruct (rev (drop_while (Ascii.eqb slash) (rev h))) as [|c cut] eqn:E; [eauto|]. rewrite H, <- app_assoc in B. eauto.
Qed.
Lemma zip_sub a b : has_zip a \/ has_zip b -> has_zip (a ++ b).
Proof.
  intros [(x & y & ->)|(x & y & ->)]; [exists x, (y ++ b); rewrite <- !app_assoc; reflexivity|exists (a ++ x), y; rewrite <- !app_assoc; reflexivity].
Qed.
Lemma find_none s : ~ has_zip s -> find (s2l ".zip") s = None.
Proof.
  intros H. destruct (find (s2l ".zip") s) eqn:F; [|reflexivity]. exfalso. apply H. apply contains_spec. unfold contains. rewrite F. reflexivity.
Qed.
Theorem C101_no_archive_hangs_refuted :
  forall link fuel, ~ has_zip link -> archive_of fuel (dirname link) (basename link) = Err OutOfFuel.
Proof.
  intros link fuel. revert link. induction fuel as [|k IH]; intros link H; [reflexivity|]. cbn [archive_of].
  rewrite find_none by (intros Z; apply H; rewrite (base_head link); apply zip_sub; right; exact Z).
  apply IH. intros Z. apply H. destruct (dirname_prefix link) as [r ->]. apply zip_sub. left. exact Z.
Qed.
(** A link that names an archive, possibly with further path elements, gives its name. *)
Lemma while_stop f s c t : forallb f s = true -> f c = false -> take_while f (s ++ c :: t) = s /\ drop_while f (s ++ c :: t) = c :: t.
Proof.
  induction s as [|x s IH]; cbn; intros A B; [rewrite B; auto|]. apply andb_true_iff in A. destruct A as [-> A]. destruct (IH A B) as [-> ->]. auto.
Qed.
Lemma no_slash_all s : no_slash s -> forallb (fun c => negb (Ascii.eqb c slash)) s = true.
Proof.
  intros H. apply forallb_forall. intros c I. destruct (Ascii.eqb_spec c slash) as [->|]; [contradiction|reflexivity].
Qed.
Lemma split_path a b : no_slash b -> basename (a ++ "/"%char :: b) = b /\
  rev (drop_while (fun c => negb (Ascii.eqb c slash)) (rev (a ++ "/"%char :: b))) = a ++ s2l "/".
Proof.
  intros N. unfold basename. replace (rev (a ++ "/"%char :: b)) with (rev b ++ "/"%char :: rev a) by (rewrite rev_app_distr; cbn; rewrite <- app_assoc; reflexivity).
  destruct (while_stop (fun c => negb (Ascii.eqb c slash)) (rev b) "/"%char (rev a)) as [-> ->]; [|reflexivity|].
  - apply no_slash_all. intros I. apply N. apply in_rev in I. exact I.
  - rewrite rev_involutive. split; [reflexivity|]. cbn. rewrite rev_involutive. reflexivity.
Qed.
Lemma last_elem s : In "/"%char s -> exists a b, s = a ++ "/"%char :: b /\ no_slash b.
Proof.
  induction s as [|c s IH]; [intros []|]. intros I. destruct (in_dec ascii_dec "/"%char s) as [J|J].
  - destruct (IH J) as (a & b & -> & N). exists (c :: a), b. auto.
  - destruct I as [->|I]; [|contradiction]. exists [], s. auto.
Qed.
(** stripping the trailing slashes of text followed by slashes *)
Lemma strip_slashes (p : str) c r : c <> slash -> rev (drop_while (Ascii.eqb slash) (rev (p ++ c :: r))) =
  p ++ c :: rev (drop_while (Ascii.eqb slash) (rev r)).
Proof.
  intros N. rewrite rev_app_distr. cbn [rev]. rewrite <- app_assoc. cbn [app].
  assert (G : forall s t, drop_while (Ascii.eqb slash) (s ++ c :: t) = drop_while (Ascii.eqb slash) s ++ c :: t).
  { induction s as [|x s IH]; intros t; cbn [app drop_while].
    - destruct (Ascii.eqb_spec slash c); [congruence|reflexivity].
    - destruct (Ascii.eqb slash x); [apply IH|reflexivity]. }
  rewrite G, rev_app_distr. cbn [rev]. rewrite rev_involutive, <- app_assoc. reflexivity.
Qed.
Lemma drop_rev_prefix r : exists t, r = rev (drop_while (Ascii.eqb slash) (rev r)) ++ t.
Proof. exists (rev (take_while (Ascii.eqb slash) (rev r))). rewrite <- rev_app_distr, <- take_drop, rev_involutive. reflexivity. Qed.

Lemma archive_search pre name x n : no_slash name -> name = x ++ s2l ".zip" ++ n -> (forall y, name <> s2l ".zip" ++ y) ->
  forall k rest, (length rest <= k)%nat -> ~ has_zip rest -> (rest = [] \/ exists r, rest = "/"%char :: r) ->
  exists m, forall fuel, (m <= fuel)%nat ->
    archive_of fuel (dirname (pre ++ "/"%char :: name ++ rest)) (basename (pre ++ "/"%char :: name ++ rest)) = Ok name.
Proof.
  intros NS EN NX. assert (FZ : exists j, find (s2l ".zip") name = Some (S j)).
  { assert (C : contains (s2l ".zip") name = true) by (apply contains_spec; eauto). unfold contains in C.
    destruct (find (s2l ".zip") name) as [[|j]|] eqn:F; [exfalso|eauto|discriminate].
    destruct name as [|c t]; [discriminate|]. cbn [find] in F. destruct (prefix (s2l ".zip") (c :: t)) eqn:P.
    - apply prefix_spec in P. destruct P as [y P]. exact (NX y P).
    - destruct (find (s2l ".zip") t); discriminate. }
  destruct FZ as [j FZ].
  assert (ND : exists n' c, name = n' ++ [c] /\ c <> slash).
  { destruct (exists_last (l := name)) as (n' & c & E); [intros ->; destruct x; discriminate|]. exists n', c. split; [exact E|].
    intros ->. apply NS. rewrite E. apply in_or_app. right. left. reflexivity. }
  destruct ND as (n' & c & EC & NC).
  induction k as [|k IH]; intros rest L NZ SH.
  - destruct rest; [|cbn in L; lia]. exists 1%nat. intros [|fuel] LE; [lia|]. rewrite app_nil_r. cbn [archive_of].
    rewrite (proj1 (split_path pre name NS)), FZ. reflexivity.
  - destruct SH as [->|[r ER]].
    { exists 1%nat. intros [|fuel] LE; [lia|]. rewrite app_nil_r. cbn [archive_of]. rewrite (proj1 (split_path pre name NS)), FZ. reflexivity. }
    destruct (last_elem rest) as (a & b & EB & NB); [rewrite ER; left; reflexivity|].
    set (rest' := rev (drop_while (Ascii.eqb slash) (rev (a ++ s2l "/")))).
    assert (D : dirname (pre ++ "/"%char :: name ++ rest) = pre ++ "/"%char :: name ++ rest' /\ basename (pre ++ "/"%char :: name ++ rest) = b).
    { replace (pre ++ "/"%char :: name ++ rest) with ((pre ++ "/"%char :: name ++ a) ++ "/"%char :: b)
        by (rewrite EB, <- !app_assoc; cbn [app]; rewrite <- !app_assoc; reflexivity).
      destruct (split_path (pre ++ "/"%char :: name ++ a) b NB) as [-> H]. split; [|reflexivity]. unfold dirname. rewrite H.
      replace ((pre ++ "/"%char :: name ++ a) ++ s2l "/") with ((pre ++ "/"%char :: n') ++ c :: (a ++ s2l "/"))
        by (rewrite EC, <- !app_assoc; cbn [app]; rewrite <- !app_assoc; reflexivity).
      rewrite strip_slashes by exact NC. fold rest'. rewrite EC.
      replace ((pre ++ "/"%char :: n') ++ c :: rest') with (pre ++ "/"%char :: (n' ++ [c]) ++ rest')
        by (rewrite <- !app_assoc; reflexivity).
      destruct (pre ++ "/"%char :: (n' ++ [c]) ++ rest') eqn:Q; [destruct pre; discriminate|reflexivity]. }
    destruct D as [D1 D2]. rewrite D1, D2.
    destruct (drop_rev_prefix (a ++ s2l "/")) as [t T]. fold rest' in T.
    assert (P : rest = rest' ++ (t ++ b)).
    { rewrite EB. change ("/"%char :: b) with (s2l "/" ++ b). rewrite app_assoc, T, <- app_assoc. reflexivity. }
    assert (TN : (1 <= length t)%nat).
    { destruct t; [|cbn; lia]. exfalso. rewrite app_nil_r in T. apply (f_equal (@rev ascii)) in T. unfold rest' in T. rewrite rev_involutive, rev_app_distr in T.
      assert (LL : forall s, (length (drop_while (Ascii.eqb slash) s) <= length s)%nat).
      { induction s as [|z s IHs]; cbn [drop_while length]; [lia|]. destruct (Ascii.eqb slash z); cbn [length]; lia. }
      specialize (LL (rev a)). change (rev (s2l "/") ++ rev a) with (slash :: rev a) in T.
      change (drop_while (Ascii.eqb slash) (slash :: rev a)) with (drop_while (Ascii.eqb slash) (rev a)) in T.
      apply (f_equal (@length ascii)) in T. cbn [length] in T. lia. }
    destruct (IH rest') as [m M].
    + rewrite P, !app_length in L. lia.
    + intros Z. apply NZ. rewrite P. apply zip_sub. left. exact Z.
    + destruct rest' as [|z q]; [left; reflexivity|]. right. rewrite P in ER. injection ER as -> _. eauto.
    + exists (S m). intros [|fuel] LE; [lia|]. cbn [archive_of].
      rewrite find_none by (intros Z; apply NZ; rewrite EB; apply zip_sub; right; change ("/"%char :: b) with (s2l "/" ++ b); apply zip_sub; right; exact Z).
      apply M. lia.
Qed.
Theorem C101_archive_found_partial :
  (* missing: links without archive, for which the search does not end *)
  forall pre name rest, no_slash name -> has_zip name -> (forall y, name <> s2l ".zip" ++ y) -> ~ has_zip rest ->
    (rest = [] \/ exists r, rest = "/"%char :: r) ->
    let link := pre ++ "/"%char :: name ++ rest in
    exists n, forall fuel, (n <= fuel)%nat -> archive_of fuel (dirname link) (basename link) = Ok name.
Proof. intros pre name rest NS (x & y & E) NX NZ SH. exact (archive_search pre name x y NS E NX (length rest) rest (le_n _) NZ SH). Qed.
Example C101_case : archive_of 3 (dirname "https://zenodo.org/record/33/files/ssj.zip/content") (basename "https://zenodo.org/record/33/files/ssj.zip/content") = Ok (s2l "ssj.zip").
Proof. reflexivity. Qed.
Print Assumptions C101_archive_found_partial.
Print Assumptions C101_no_archive_hangs_refuted.

(** ** C102, C103 *)
(** The files a request selects from the archive. *)
Definition asked (now : Z) (stime etime : option Z) (sat_nums : option (list Z)) (name : str) : Prop :=
  (sat_nums = None /\ stime = None /\ etime = None) \/
  evaluate_dmsp_boundary_file now name stime etime match sat_nums with None => [16; 17; 18] | Some l => l end = Ok true.
(** [out] is [names] without the elements outside [keep]. *)
Inductive kept_of {A} (keep : A -> Prop) : list A -> list A -> Prop :=
| kept_nil : kept_of keep [] []
| kept_in a l out : keep a -> kept_of keep l out -> kept_of keep (a :: l) (a :: out)
| kept_out a l out : ~ keep a -> kept_of keep l out -> kept_of keep (a :: l) out.
Lemma member_add n fs x : In x (add n fs) <-> In x fs \/ x = n.
Proof.
  unfold add. destruct (member n fs) eqn:M; [apply member_spec in M|]; [split; [auto|intros [I| ->]; auto]|].
  rewrite in_app_iff. cbn. intuition.
Qed.
Lemma member_remove n fs x : In x (remove n fs) <-> In x fs /\ x <> n.
Proof.
  unfold remove. rewrite filter_In. split; intros [I H]; (split; [exact I|]).
  - intros ->. rewrite (proj2 (str_eqb_spec n n) eq_refl) in H. discriminate.
  - destruct (str_eqb x n) eqn:Q; [apply str_eqb_spec in Q; contradiction|reflexivity].
Qed.
Lemma extract_spec choose (keep : str -> Prop) :
  (forall n r, choose n = Ok r -> r = true <-> keep n) ->
  forall names files out fs res, extract choose names files out = (fs, Ok res) ->
    exists sel, res = out ++ sel /\ kept_of keep names sel /\ forall x, In x fs <-> In x files \/ In x sel.
Proof.
  intros K. induction names as [|n t IH]; intros files out fs res E; cbn [extract] in E.
  - injection E as <- <-. exists []. rewrite app_nil_r. split; [reflexivity|]. split; [constructor|]. intros x. cbn. intuition.
  - destruct (choose n) as [[|]|] eqn:C; [| |discriminate].
    + destruct (IH _ _ _ _ E) as (sel & -> & KO & FS). exists (n :: sel). rewrite <- app_assoc. split; [reflexivity|].
      split; [constructor; [apply (K n true C); reflexivity|exact KO]|]. intros x. rewrite FS, member_add. cbn [In]. intuition congruence.
    + destruct (IH _ _ _ _ E) as (sel & -> & KO & FS). exists sel. split; [reflexivity|].
      split; [constructor 3; [intros H; apply (K n false C) in H; discriminate|exact KO]|exact FS].
Qed.
(** The steps of a successful download. *)
Lemma fetch_ok fuel w dir_ok dl zip now st et sats rm w' out :
  fetch fuel w dir_ok dl zip now st et sats rm = (w', Ok out) ->
  exists msg created link archive, dl = DDone msg created /\ after_word "Link:" (words [] msg) = Some link /\
    archive_of fuel (dirname link) (basename link) = Ok archive /\
    kept_of (asked now st et sats) (zip archive) out /\
    forall x, In x (w_files w') <-> ((In x (w_files w) \/ In x created) /\ x <> s2l "md5sums.txt" \/ In x out) /\ (rm = true -> x <> archive).
Proof.
  unfold fetch. destruct (negb (forallb _ _)); [discriminate|]. destruct (negb dir_ok); [discriminate|].
  destruct dl as [e|msg created]; [discriminate|]. destruct (negb (contains _ _) && _); [discriminate|].
  cbn [w_files]. set (fs1 := fold_left _ created (w_files w)).
  assert (F1 : forall x, In x fs1 <-> In x (w_files w) \/ In x created).
  { unfold fs1. generalize (w_files w). clear fs1. induction created as [|c t IH]; intros fs x; cbn [fold_left]; [cbn; intuition|].
    rewrite IH, member_add. cbn [In]. intuition congruence. }
  destruct (negb (member "md5sums.txt" fs1)); [discriminate|].
  destruct (after_word _ _) as [link|] eqn:AW; [|discriminate]. destruct (archive_of _ _ _) as [archive|] eqn:AR; [|discriminate].
  destruct (negb (member archive _)); [discriminate|].
  match goal with |- context [extract ?f _ _ _] => set (choose := f) end.
  destruct (extract choose _ _ _) as [fs [o|]] eqn:EX; [|discriminate]. intros E. injection E as <- <-.
  exists msg, created, link, archive. split; [reflexivity|]. split; [exact AW|]. split; [exact AR|].
  destruct (extract_spec choose (asked now st et sats)) with (2 := EX) as (sel & -> & KO & FS).
  - intros n r C. unfold choose in C. unfold asked.
    assert (D : (sats = None /\ st = None /\ et = None) \/ ~ (sats = None /\ st = None /\ et = None)).
    { destruct sats, st, et; try (right; intros (? & ? & ?); discriminate). left. auto. }
    destruct D as [D|D].
    + destruct D as (-> & -> & ->). injection C as <-. split; auto.
    + assert (C' : evaluate_dmsp_boundary_file now n st et match sats with None => [16; 17; 18] | Some l => l end = Ok r).
      { destruct sats, st, et; try exact C. exfalso. apply D. auto. }
      rewrite C'. split; [intros ->; auto|]. intros [H|H]; [contradiction|injection H as <-; reflexivity].
  - cbn [app]. split; [exact KO|]. intros x. cbn [w_files]. destruct rm.
    + rewrite member_remove, FS, member_remove, F1. intuition.
    + rewrite FS, member_remove, F1. intuition discriminate.
Qed.
Theorem C102_temporary_files_partial :
  (* missing: calls that raise, C102_left_behind_refuted *)
  forall fuel w dir_ok msg created link archive zip now stime etime sats w' out,
    fetch fuel w dir_ok (DDone msg created) zip now stime etime sats true = (w', Ok out) ->
    after_word "Link:" (words [] msg) = Some link -> archive_of fuel (dirname link) (basename link) = Ok archive ->
    ~ In (s2l "md5sums.txt") out ->
    ~ In (s2l "md5sums.txt") (w_files w') /\ ~ In archive (w_files w') /\
    (forall x, In x out -> x <> archive -> In x (w_files w')) /\
    (* nothing else of the directory is lost *)
    (forall x, In x (w_files w) -> x <> s2l "md5sums.txt" -> x <> archive -> In x (w_files w')).
Proof.
  intros fuel w dir_ok msg created link archive zip now st et sats w' out E L A NM.
  destruct (fetch_ok _ _ _ _ _ _ _ _ _ _ _ _ E) as (msg' & created' & link' & archive' & D & L' & A' & _ & F).
  injection D as <- <-. rewrite L in L'. injection L' as <-. rewrite A in A'. injection A' as <-.
  split; [rewrite F; intuition|]. split; [rewrite F; intuition|]. split; intros x; rewrite F; intuition.
Qed.
Theorem C102_left_behind_refuted :
  (* a file of the archive whose name cannot be read stops the extraction *)
  exists fuel dl zip, forall now, exists e,
    fetch fuel (mkWorld Console []) true dl zip now (Some 0) None None true = (mkWorld Console [s2l "a.zip"], Err e) .
Proof.
  exists 3%nat, (DDone "Checksum is correct Link: https://z/a.zip" [s2l "a.zip"; s2l "md5sums.txt"]), (fun _ => [s2l "readme.txt"]).
  intros now. eexists. vm_compute. reflexivity.
Qed.
Theorem C103_requested_files :
  forall fuel w dir_ok dl zip now stime etime sats rm w' out,
    fetch fuel w dir_ok dl zip now stime etime sats rm = (w', Ok out) ->
    exists msg created link archive, dl = DDone msg created /\ after_word "Link:" (words [] msg) = Some link /\
      archive_of fuel (dirname link) (basename link) = Ok archive /\
      kept_of (asked now stime etime sats) (zip archive) out /\ (forall x, In x out -> x <> archive -> In x (w_files w')).
Proof.
  intros fuel w dir_ok dl zip now st et sats rm w' out E. destruct (fetch_ok _ _ _ _ _ _ _ _ _ _ _ _ E) as (msg & created & link & archive & A & B & C & D & F).
  exists msg, created, link, archive. repeat (split; [assumption|]). intros x I N. rewrite F. intuition.
Qed.
Theorem C103_bad_arguments_refused :
  forall fuel w dir_ok dl zip now stime etime sats rm, ~ arguments_ok sats dir_ok ->
    fetch fuel w dir_ok dl zip now stime etime sats rm = (w, Err ValueError).
Proof.
  intros fuel w dir_ok dl zip now st et sats rm N. unfold fetch. destruct (forallb _ _) eqn:F; cbn [negb]; [|reflexivity].
  destruct dir_ok; cbn [negb]; [|reflexivity]. exfalso. apply N. split; [reflexivity|]. intros l -> s I.
  rewrite forallb_forall in F. specialize (F s I). apply existsb_exists in F. destruct F as (z & Z & Q). apply Z.eqb_eq in Q. subst z. exact Z.
Qed.
Example C103_case :
  fetch 3 (mkWorld Console [s2l "b.txt"]) true (DDone "Checksum is correct Link: https://z/a.zip" [s2l "a.zip"; s2l "md5sums.txt"])
    (fun _ => [s2l "dmsp-f16_ssj_auroral-boundary_20100101_v1.1.3.nc"; s2l "dmsp-f17_ssj_auroral-boundary_20100101_v1.1.3.nc"])
    0 None (Some (day 2011 1 1)) (Some [17]) true
  = (mkWorld Console [s2l "b.txt"; s2l "dmsp-f17_ssj_auroral-boundary_20100101_v1.1.3.nc"], Ok [s2l "dmsp-f17_ssj_auroral-boundary_20100101_v1.1.3.nc"]).
Proof. vm_compute. reflexivity. Qed.
Print Assumptions C102_temporary_files_partial.
Print Assumptions C102_left_behind_refuted.
Print Assumptions C103_requested_files.
Print Assumptions C103_bad_arguments_refused.

(** ** C104 *)
Definition readable {A} (f : csv A) : Prop := c_width_ok f = true /\ (2 <= length (c_rows f))%nat.
Lemma rank2_spec {A} (f : csv A) : rank2 f && c_width_ok f = true <-> readable f.
Proof.
  unfold readable, rank2. destruct (c_rows f) as [|a [|b t]]; destruct (c_width_ok f); cbn; split; intros H; try discriminate; try lia;
    try (split; [reflexivity|lia]); try reflexivity; destruct H; discriminate.
Qed.
Lemma kept_app {A} (k : A -> Prop) l1 o1 l2 o2 : kept_of k l1 o1 -> kept_of k l2 o2 -> kept_of k (l1 ++ l2) (o1 ++ o2).
Proof. intros K1 K2. induction K1; cbn; [exact K2|constructor; assumption|constructor 3; assumption]. Qed.
Lemma write_rows_spec {A} (rows : list (Z * A)) : (forall r, In r rows -> fst r = 1 \/ fst r = -1) -> forall o,
  exists rn rs, kept_of (fun r => fst r = 1) rows rn /\ kept_of (fun r => fst r = -1) rows rs /\
    write_rows o rows = Ok (mkOut (o_north o ++ map snd rn) (o_south o ++ map snd rs) (o_bad o)).
Proof.
  induction rows as [|[h d] t IH]; intros H o.
  - exists [], []. cbn. rewrite !app_nil_r. destruct o. repeat split; constructor.
  - cbn [write_rows]. destruct (H (h, d) (or_introl eq_refl)) as [E|E]; cbn [fst] in E; subst h; cbn [Z.eqb Pos.eqb].
    + destruct (IH (fun r I => H r (or_intror I)) (mkOut (o_north o ++ [d]) (o_south o) (o_bad o))) as (rn & rs & K1 & K2 & ->).
      exists ((1, d) :: rn), rs. split; [constructor; [reflexivity|exact K1]|]. split; [constructor 3; [cbn; lia|exact K2]|].
      cbn [o_north o_south o_bad map snd]. rewrite <- app_assoc. reflexivity.
    + destruct (IH (fun r I => H r (or_intror I)) (mkOut (o_north o) (o_south o ++ [d]) (o_bad o))) as (rn & rs & K1 & K2 & ->).
      exists rn, ((-1, d) :: rs). split; [constructor 3; [cbn; lia|exact K1]|]. split; [constructor; [reflexivity|exact K2]|].
      cbn [o_north o_south o_bad map snd]. rewrite <- app_assoc. reflexivity.
Qed.
Theorem C104_passes_written_partial :
  (* missing: files with a single pass, C104_single_pass_refuted *)
  forall A (files : list (csv A)), files <> [] ->
    (forall f r, In f files -> readable f -> In r (c_rows f) -> fst r = 1 \/ fst r = -1) ->
    exists o good bad north south, format_passes files = Ok o /\
      kept_of readable files good /\ kept_of (fun f => ~ readable f) files bad /\
      kept_of (fun r => fst r = 1) (concat (map c_rows good)) north /\ kept_of (fun r => fst r = -1) (concat (map c_rows good)) south /\
      o_north o = map snd north /\ o_south o = map snd south /\ o_bad o = map c_name bad.
Proof.
  intros A files NE H. destruct files as [|f0 t0]; [contradiction|]. unfold format_passes. clear NE.
  remember (f0 :: t0) as files. clear Heqfiles.
  assert (G : forall o, exists good bad north south,
    kept_of readable files good /\ kept_of (fun f => ~ readable f) files bad /\
    kept_of (fun r => fst r = 1) (concat (map c_rows good)) north /\ kept_of (fun r => fst r = -1) (concat (map c_rows good)) south /\
    write_files o files = Ok (mkOut (o_north o ++ map snd north) (o_south o ++ map snd south) (o_bad o ++ map c_name bad))).
  { induction files as [|f t IH]; intros o.
    - exists [], [], [], []. cbn. rewrite !app_nil_r. destruct o. repeat split; constructor.
    - cbn [write_files]. specialize (IH (fun f r I => H f r (or_intror I))). destruct (rank2 f && c_width_ok f) eqn:R.
      + apply rank2_spec in R. destruct (write_rows_spec (c_rows f) (fun r => H f r (or_introl eq_refl) R) o) as (rn & rs & K1 & K2 & ->).
        cbn [bind]. destruct (IH (mkOut (o_north o ++ map snd rn) (o_south o ++ map snd rs) (o_bad o))) as (good & bad & nn & ss & G1 & G2 & G3 & G4 & ->).
        exists (f :: good), bad, (rn ++ nn), (rs ++ ss). split; [constructor; assumption|]. split; [constructor 3; [tauto|assumption]|].
        cbn [map concat]. split; [apply kept_app; assumption|]. split; [apply kept_app; assumption|].
        cbn [o_north o_south o_bad]. rewrite !map_app, !app_assoc. reflexivity.
      + assert (NR : ~ readable f) by (intros X; apply rank2_spec in X; congruence).
        destruct (IH (mkOut (o_north o) (o_south o) (o_bad o ++ [c_name f]))) as (good & bad & nn & ss & G1 & G2 & G3 & G4 & ->).
        exists good, (f :: bad), nn, ss. split; [constructor 3; assumption|]. split; [constructor; assumption|].
        split; [assumption|]. split; [assumption|]. cbn [o_north o_south o_bad map]. rewrite <- app_assoc. reflexivity. }
  destruct (G (mkOut [] [] [])) as (good & bad & nn & ss & G1 & G2 & G3 & G4 & E). rewrite E. cbn [o_north o_south o_bad app].
  eexists. exists good, bad, nn, ss. split; [reflexivity|]. cbn [o_north o_south o_bad]. auto 10.
Qed.
Theorem C104_single_pass_refuted :
  forall A name (row : Z * A), format_passes [mkCsv name true [row]] = Ok (mkOut [] [] [name]).
Proof. reflexivity. Qed.
Theorem C104_hemisphere_refused :
  forall A name (rows1 rows2 : list (Z * A)) h d, h <> 1 -> h <> -1 -> (1 <= length (rows1 ++ rows2))%nat ->
    format_passes [mkCsv name true (rows1 ++ (h, d) :: rows2)] = Err KeyError.
Proof.
  intros A name r1 r2 h d N1 N2 L. unfold format_passes. cbn [write_files].
  assert (R : rank2 (mkCsv name true (r1 ++ (h, d) :: r2)) && c_width_ok (mkCsv name true (r1 ++ (h, d) :: r2)) = true).
  { apply rank2_spec. split; [reflexivity|]. cbn [c_rows]. rewrite app_length in *. cbn [length]. lia. }
  rewrite R. cbn [c_rows]. clear R L. generalize (mkOut (@nil A) [] []). induction r1 as [|[k e] t IH]; intros o; cbn [app write_rows].
  - apply Z.eqb_neq in N1, N2. rewrite N1, N2. reflexivity.
  - destruct (k =? 1); [apply IH|]. destruct (k =? -1); [apply IH|reflexivity].
Qed.
Example C104_case : format_passes [mkCsv "a" true [(1, 5); (-1, 6)]; mkCsv "b" true [(1, 7)]; mkCsv "c" true [(-1, 8); (1, 9); (1, 10)]] =
  Ok (mkOut [5; 9; 10] [6; 8] [s2l "b"]).
Proof. reflexivity. Qed.
Print Assumptions C104_passes_written_partial.
Print Assumptions C104_single_pass_refuted.
Print Assumptions C104_hemisphere_refused.

(** ** C105 *)
(** The part of the name of a file of passes after dmsp-f: II_ssj_W_DATE_VERSION_REST. *)
Definition pass_file (t d v : str) : Prop :=
  exists ids w rest, t = joined [ids; s2l "ssj"; w; d; v; rest] /\ Forall plain [ids; w; d; v] /\
    no_slash t /\ ~ (exists a b, t = a ++ s2l "dmsp-f" ++ b).
Definition has_f (s : str) : Prop := exists a b, s = a ++ s2l "-f" ++ b.
Lemma common2_prefix p a b : common2 (p ++ a) (p ++ b) = p ++ common2 a b.
Proof. induction p as [|c p IH]; [reflexivity|]. cbn [app common2]. rewrite Ascii.eqb_refl, IH. reflexivity. Qed.
Lemma common_prefix p l : l <> [] -> Forall (fun f => exists r, f = p ++ r) l -> exists r, commonprefix l = p ++ r.
Proof.
  destruct l as [|a t]; [contradiction|]. intros _ F. inversion F as [|? ? [r R] F']; subst. unfold commonprefix. clear F.
  revert r. induction F' as [|b t' [q Q] F' IH]; intros r; cbn [fold_left]; [eauto|]. subst b. rewrite common2_prefix. apply IH.
Qed.
Lemma before_f p r : ~ has_f p -> before (s2l "-f") (p ++ s2l "-f" ++ r) = p.
Proof.
  intros N. unfold before. assert (F : find (s2l "-f") (p ++ s2l "-f" ++ r) = Some (length p)).
  { induction p as [|c p IH]; [destruct r; reflexivity|]. cbn [app find].
    assert (P : prefix (s2l "-f") (c :: p ++ s2l "-f" ++ r) = false).
    { destruct (prefix (s2l "-f") (c :: p ++ s2l "-f" ++ r)) eqn:P; [exfalso|reflexivity]. apply prefix_spec in P. destruct P as [y P].
      cbn [s2l list_ascii_of_string app] in P. injection P as -> P. destruct p as [|c2 p]; [discriminate P|]. injection P as -> _.
      apply N. exists [], p. reflexivity. }
    rewrite P, IH; [reflexivity|]. intros (x & y & ->). apply N. exists (c :: x), y. reflexivity. }
  rewrite F, firstn_app, firstn_all, Nat.sub_diag, app_nil_r. reflexivity.
Qed.
Lemma basename_app dir b : no_slash b -> basename (dir ++ s2l "/" ++ b) = b.
Proof. intros N. exact (proj1 (split_path dir b N)). Qed.
Lemma parts_of dir t d v : pass_file t d v ->
  part (name_parts (dir ++ s2l "/" ++ s2l "dmsp-f" ++ t)) 1 = Ok (s2l "ssj") /\
  part (name_parts (dir ++ s2l "/" ++ s2l "dmsp-f" ++ t)) 3 = Ok d /\ part (name_parts (dir ++ s2l "/" ++ s2l "dmsp-f" ++ t)) 4 = Ok v.
Proof.
  intros (ids & w & rest & E & PL & NS & ND). unfold name_parts.
  assert (B : basename (dir ++ s2l "/" ++ s2l "dmsp-f" ++ t) = s2l "dmsp-f" ++ t).
  { apply basename_app. intros I. apply in_app_or in I. destruct I as [I|I]; [cbn in I; intuition discriminate|exact (NS I)]. }
  rewrite B. cbv zeta.
  assert (A : after_last (length (s2l "dmsp-f" ++ t)) "dmsp-f" (s2l "dmsp-f" ++ t) = t).
  { change (length (s2l "dmsp-f" ++ t)) with (S (5 + length t)). cbn [after_last].
    assert (F0 : find (s2l "dmsp-f") (s2l "dmsp-f" ++ t) = Some 0%nat) by (destruct t; reflexivity). rewrite F0.
    change (skipn (0 + length (s2l "dmsp-f")) (s2l "dmsp-f" ++ t)) with t.
    assert (F1 : find (s2l "dmsp-f") t = None).
    { destruct (find (s2l "dmsp-f") t) eqn:F; [|reflexivity]. exfalso. apply ND. apply contains_spec. unfold contains. rewrite F. reflexivity. }
    destruct (5 + length t)%nat; [reflexivity|]. cbn [after_last]. rewrite F1. reflexivity. }
  rewrite A, E. inversion_clear PL as [|? ? P1 PL']. inversion_clear PL' as [|? ? P2 PL]. inversion_clear PL as [|? ? P3 PL']. inversion_clear PL' as [|? ? P4 _].
  cbn [joined]. assert (PS : plain (s2l "ssj")) by (apply plain_dec; reflexivity).
  rewrite !split_app by assumption. cbn [part nth_error]. auto.
Qed.
Lemma in_last {A} (a : A) l : In (last (a :: l) a) (a :: l).
Proof.
  assert (G : forall (l : list A) a d, In (last (a :: l) d) (a :: l)) by (induction l0 as [|b m IH]; intros x d; [left; reflexivity|right; apply IH]).
  apply G.
Qed.
Lemma out_name_spec p q (files : list (str * str * str)) hw ext d1 v1 dn vn t1 tn mid : ~ has_f p ->
  files = (t1, d1, v1) :: mid -> last files (t1, d1, v1) = (tn, dn, vn) ->
  Forall (fun '(t, d, v) => pass_file t d v) files ->
  (forall t, exists r, q ++ s2l "/" ++ s2l "dmsp-f" ++ t = p ++ s2l "-f" ++ r) ->
  out_name (map (fun '(t, d, v) => q ++ s2l "/" ++ s2l "dmsp-f" ++ t) files) hw ext =
    Ok (p ++ s2l "-ssj_" ++ hw ++ s2l "_" ++ d1 ++ s2l "_" ++ dn ++ s2l "_" ++ vn ++ ext).
Proof.
  intros NF E L F PR. subst files. set (g := fun '(t, d, v) => q ++ s2l "/" ++ s2l "dmsp-f" ++ t) in *.
  assert (LA : @last str (map g ((t1, d1, v1) :: mid)) (g (t1, d1, v1)) = q ++ s2l "/" ++ s2l "dmsp-f" ++ tn).
  { assert (M : forall l x, last (map g l) (g x) = g (last l x)).
    { induction l as [|a [|b l] IH]; intros x; [reflexivity|reflexivity|]. exact (IH x). }
    etransitivity; [apply M|exact (f_equal g L)]. }
  assert (FN : pass_file tn dn vn).
  { pose proof (in_last (t1, d1, v1) mid) as I.
    rewrite Forall_forall in F. specialize (F _ I). replace (last ((t1, d1, v1) :: mid) (t1, d1, v1)) with (tn, dn, vn) in F; exact F. }
  assert (F1 : pass_file t1 d1 v1) by (inversion F; assumption).
  assert (CP : exists r, commonprefix (map g ((t1, d1, v1) :: mid)) = (p ++ s2l "-f") ++ r).
  { apply common_prefix; [discriminate|]. apply Forall_forall. intros f I. apply in_map_iff in I. destruct I as ([[t d] v] & <- & _).
    destruct (PR t) as [r R]. exists r. unfold g. rewrite R, <- app_assoc. reflexivity. }
  destruct CP as [r CP]. unfold out_name. cbn [map] in *. rewrite LA, CP, <- app_assoc, before_f by exact NF.
  unfold g at 1. destruct (parts_of q _ _ _ F1) as (_ & -> & _). destruct (parts_of q _ _ _ FN) as (A1 & A3 & A4). rewrite A1, A3, A4.
  reflexivity.
Qed.
Lemma lowers_plain s : plain s -> plain (lowers s).
Proof.
  intros P I. apply P. clear P. unfold lowers in I. apply in_map_iff in I. destruct I as (c & E & I).
  assert (c = "_"%char) as ->; [|exact I]. destruct c as [[] [] [] [] [] [] [] []]; (reflexivity || discriminate E).
Qed.
Theorem C105_output_names_partial :
  (* missing: directories with -f in their name, C105_directory_refuted *)
  forall dir files t1 d1 v1 mid tn dn vn h hw bound tomorrow, ~ has_f dir -> hemi_word h hw -> bound = s2l "ocb" \/ bound = s2l "eab" ->
    files = (t1, d1, v1) :: mid -> last files (t1, d1, v1) = (tn, dn, vn) ->
    Forall (fun '(t, d, v) => pass_file t d v) files ->
    exists name s e,
      out_name (map (fun '(t, d, v) => dir ++ s2l "/dmsp-f" ++ t) files) hw (s2l "." ++ bound) = Ok (dir ++ s2l "/" ++ name) /\
      name = s2l "dmsp-ssj_" ++ hw ++ s2l "_" ++ d1 ++ s2l "_" ++ dn ++ s2l "_" ++ vn ++ s2l "." ++ bound /\
      describes tomorrow bound name (s2l "dmsp-ssj") h s e.
Proof.
  intros dir files t1 d1 v1 mid tn dn vn h hw bound tomorrow NF HW BD E L F.
  assert (O : out_name (map (fun '(t, d, v) => dir ++ s2l "/" ++ s2l "dmsp-f" ++ t) files) hw (s2l "." ++ bound) =
    Ok ((dir ++ s2l "/dmsp") ++ s2l "-ssj_" ++ hw ++ s2l "_" ++ d1 ++ s2l "_" ++ dn ++ s2l "_" ++ vn ++ s2l "." ++ bound)).
  { eapply out_name_spec; try eassumption.
    - intros (a & b & X). assert (Y : forall l a', l ++ s2l "/dmsp" = a' ++ s2l "-f" ++ b -> has_f l).
      { induction l as [|c l IH]; intros a' Z.
        - exfalso. assert (Q : contains (s2l "-f") (s2l "/dmsp") = true) by (apply contains_spec; eauto). vm_compute in Q. discriminate Q.
        - destruct a' as [|c' a'].
          + cbn [app s2l list_ascii_of_string] in Z. injection Z as -> Z. destruct l as [|c2 l]; [discriminate Z|]. injection Z as -> _. exists [], l. reflexivity.
          + injection Z as -> Z. destruct (IH a' Z) as (x & y & ->). exists (c' :: x), y. reflexivity. }
      exact (NF (Y _ _ X)).
    - intros t. exists t. rewrite <- app_assoc. reflexivity. }
  assert (PD : forall t d v, In (t, d, v) files -> plain d /\ plain v).
  { intros t d v I. rewrite Forall_forall in F. destruct (F _ I) as (ids & w & rest & _ & PL & _).
    inversion_clear PL as [|? ? P1 PL']. inversion_clear PL' as [|? ? P2 PL]. inversion_clear PL as [|? ? P3 PL']. inversion_clear PL' as [|? ? P4 _]. auto. }
  assert (D1 : plain d1) by (apply (PD t1 d1 v1); subst files; left; reflexivity).
  assert (DN : plain dn /\ plain vn).
  { apply (PD tn). subst files. pose proof (in_last (t1, d1, v1) mid) as I. rewrite L in I. exact I. }
  eexists. exists (day 2010 1 1), tomorrow. split; [|split; [reflexivity|]].
  - etransitivity; [exact O|]. rewrite <- !app_assoc. reflexivity.
  - exists hw, [lowers d1; lowers dn; lowers vn], "."%char. split; [|split; [|split; [exact HW|]]].
    + unfold lowers. rewrite !map_app. destruct HW as [[_ ->]|[_ ->]]; cbn [joined];
        repeat (rewrite <- app_assoc || rewrite <- app_comm_cons); reflexivity.
    + repeat constructor; try (apply lowers_plain; tauto); try (apply plain_dec; reflexivity).
      destruct HW as [[_ ->]|[_ ->]]; apply plain_dec; reflexivity.
    + left. repeat right. split; [reflexivity|]. split; [|reflexivity]. exists (ordinal 2010 1 1). split; [apply calendar_day_spec; cbn; lia|reflexivity].
Qed.
Theorem C105_directory_refuted :
  forall a b files t1 d1 v1 mid tn dn vn hw ext, ~ has_f a ->
    files = (t1, d1, v1) :: mid -> last files (t1, d1, v1) = (tn, dn, vn) ->
    Forall (fun '(t, d, v) => pass_file t d v) files ->
    out_name (map (fun '(t, d, v) => (a ++ s2l "-f" ++ b) ++ s2l "/dmsp-f" ++ t) files) hw ext =
      Ok (a ++ s2l "-ssj_" ++ hw ++ s2l "_" ++ d1 ++ s2l "_" ++ dn ++ s2l "_" ++ vn ++ ext).
Proof.
  intros a b files t1 d1 v1 mid tn dn vn hw ext NF E L F.
  refine (out_name_spec a (a ++ s2l "-f" ++ b) files hw ext d1 v1 dn vn t1 tn mid NF E L F _).
  intros t. eexists. rewrite <- !app_assoc. reflexivity.
Qed.
Example C105_case : pass_file "16_ssj_precipitating-electrons-ions_20101231_v1.1.2_boundaries.csv" "20101231" "v1.1.2".
Proof.
  exists (s2l "16"), (s2l "precipitating-electrons-ions"), (s2l "boundaries.csv"). split; [reflexivity|].
  split; [repeat constructor; apply plain_dec; reflexivity|]. split; [intros I; vm_compute in I; intuition discriminate|].
  intros X. apply contains_spec in X. vm_compute in X. discriminate X.
Qed.
Print Assumptions C105_output_names_partial.
Print Assumptions C105_directory_refuted.
