(** Properties C156-C160: metadata of the pysat output. *)
From Coq Require Import String Ascii ZArith List Bool Lia.
From Verif Require Import PyBase TimeModel FilesModel FilesSpec FilesProofs SmagModel PysatModel PysatSpec PysatProofs PmetaModel PmetaSpec PmetaProofs.
Import ListNotations.
Open Scope list_scope.

(** ** C156: existing metadata are kept *)
Theorem C156_kept fresh columns b s vecs comps outs m m' : meta_all fresh columns b s vecs comps outs m = Ok m' ->
  (forall x e, lookup x m = Some e -> lookup x m' = Some e) /\ (forall x, ~ In x outs -> lookup x m' = lookup x m) /\ (forall o, In o outs -> exists e, lookup o m' = Some e).
Proof. apply all_any. Qed.
Theorem C156_overwrite fresh columns m o p ow notes v m' : add_meta fresh columns m o p ow notes v = Ok m' ->
  (forall x, x <> o -> lookup x m' = lookup x m) /\
  (ow = true -> exists e, lookup o m' = Some e /\ e LNotes = VText notes /\ e LFill = VNan) /\
  (ow = false -> forall e, lookup o m = Some e -> lookup o m' = Some e).
Proof.
  intros E. destruct ow.
  - destruct (add_new fresh columns m o p true notes v m' E (or_introl eq_refl)) as [A B]. split; [exact B|]. split; [intros _; exact A|discriminate].
  - destruct (add_any fresh columns m o p notes v m' E) as (A & B & _). split; [exact B|]. split; [discriminate|]. intros _ e. apply A.
Qed.

(** ** C157: metadata of a scaled variable follow those of the variable *)
(** Everything that [add_ocb_to_metadata] keeps; what it changes. *)
Definition changed (l : label) : Prop := l = LName \/ l = LDesc \/ l = LFill \/ l = LNotes.
Theorem C157_variable_partial fresh columns (m : meta) v p b u d ow notes (e : mentry) n t : boundary_words b u d -> untitled v -> lookup p m = Some e -> e LName = VText n -> e LDesc = VText t ->
  (ow = true \/ lookup (out_name v b) m = None) ->
  exists m' e', add_meta fresh columns m (out_name v b) p ow notes false = Ok m' /\ lookup (out_name v b) m' = Some e' /\
    e' LName = VText (u ++ " "%char :: n) /\ e' LDesc = VText (d ++ t) /\ e' LFill = VNan /\ e' LNotes = VText notes /\ forall l, In l columns -> ~ changed l -> e' l = e l.
Proof.
  intros W U L EN ED C. unfold add_meta. rewrite (bound_of_out v b u d U W). destruct (words_facts b u d W) as (Ub & Db & _).
  rewrite (add_guard ow (out_name v b) m C), L. rewrite EN, ED, Ub, Db. cbn [joined_text bind]. match goal with |- context [set_entry fresh m ?o ?new] => destruct (set_entry_same fresh m o new) as (e' & A & B) end.
  eexists. exists e'. split; [reflexivity|]. split; [exact A|]. split; [apply B; cbn; rewrite <- app_assoc; reflexivity|]. split; [apply B; reflexivity|]. split; [apply B; reflexivity|]. split; [apply B; reflexivity|].
  intros l I NC. apply B. cbn [given].
  assert (F : forall x, changed x -> label_eqb l x = false) by (intros x X; apply not_true_iff_false; intros Y; apply label_eqb_spec in Y; subst; contradiction).
  rewrite !F by (unfold changed; tauto). apply given_columns. exact I.
Qed.
(** A variable without metadata. *)
Theorem C157_no_metadata_partial fresh columns (m : meta) v p b u d ow notes vec : boundary_words b u d -> untitled v -> ~ mentions ("_"%char :: b) v -> lookup p m = None ->
  (ow = true \/ lookup (out_name v b) m = None) ->
  exists m' e' t, add_meta fresh columns m (out_name v b) p ow notes vec = Ok m' /\ lookup (out_name v b) m' = Some e' /\
    e' LName = VText (u ++ " "%char :: spaced v) /\ e' LDesc = VText t /\ begins (d ++ [" "%char]) t /\ e' LFill = VNan /\ e' LNotes = VText notes /\ e' LMin = VLow /\ e' LMax = VHigh.
Proof.
  intros W U M L C. unfold add_meta. rewrite (bound_of_out v b u d U W). destruct (words_facts b u d W) as (Ub & Db & _).
  rewrite (add_guard ow (out_name v b) m C), L, Ub, Db. rewrite (new_name_of (out_name v b) v b u d [] (bound_of_out v b u d U W) W) by (try exact M; unfold out_name; rewrite app_nil_r; reflexivity). cbn [bind].
  match goal with |- context [set_entry fresh m ?o ?new] => destruct (set_entry_same fresh m o new) as (e' & A & B) end.
  eexists. exists e'. eexists. split; [reflexivity|]. split; [exact A|]. split; [apply B; reflexivity|]. split; [apply B; reflexivity|]. split.
  - inversion W; subst; (eexists; unfold replaced_by, replace; cbn -[spaced]; reflexivity).
  - split; [apply B; reflexivity|]. split; [apply B; reflexivity|]. split; apply B; reflexivity.
Qed.
(** A variable named after another boundary: the output of one boundary is described as one
    of the other. *)
Theorem C157_other_boundary_refuted : exists m e', add_meta (fun _ => VNan) [LName; LDesc; LUnits] m (out_name (s2l "eab_flag") (s2l "ocb")) (s2l "eab_flag") false (s2l "n") false =
    Ok (m ++ [(out_name (s2l "eab_flag") (s2l "ocb"), e')]) /\ e' LName = VText (s2l "EAB Flag") /\ e' LDesc = VText (s2l "Equatorward Auroral Boundaryflag").
Proof. exists [(s2l "eab_flag", fun l => match l with LName => VText (s2l "Flag") | LDesc => VText (s2l "flag") | _ => VNan end)]. eexists. split; [vm_compute; reflexivity|]. split; vm_compute; reflexivity. Qed.

(** ** C158: the notes of every new output tell the boundary used *)
Definition told (s : source) (t : list ascii) : Prop :=
  forall i f l, (s = One (i, f, l) \/ (exists a, s = Both (i, f, l) a) \/ (exists a, s = Both a (i, f, l))) -> mentions i t /\ mentions f t /\ mentions l t.
Lemma notes_told s x : told s (notes_of s ++ x).
Proof.
  intros i f l [->|[[[[i' f'] l'] ->]|[[[i' f'] l'] ->]]]; cbn [notes_of]; rewrite <- ?app_assoc.
  - split; [eexists; eexists; reflexivity|]. split.
    + eexists (s2l "Boundary obtained from " ++ i ++ s2l " data in file "). eexists. rewrite <- !app_assoc. reflexivity.
    + eexists (s2l "Boundary obtained from " ++ i ++ s2l " data in file " ++ f ++ s2l "using a boundary latitude of "). eexists. rewrite <- !app_assoc. reflexivity.
  - split; [eexists; eexists; reflexivity|]. split.
    + eexists (s2l "OCB obtained from " ++ i ++ s2l " data" ++ s2l " in file "). eexists. rewrite <- !app_assoc. reflexivity.
    + eexists (s2l "OCB obtained from " ++ i ++ s2l " data" ++ s2l " in file " ++ f ++ s2l " using a " ++ s2l "boundary latitude of "). eexists. rewrite <- !app_assoc. reflexivity.
  - set (h := s2l "OCB obtained from " ++ i' ++ s2l " data" ++ s2l " in file " ++ f' ++ s2l " using a " ++ s2l "boundary latitude of " ++ l' ++ s2l " and EAB" ++ s2l "EAB obtained from ").
    split; [exists h; eexists; unfold h; rewrite <- !app_assoc; reflexivity|]. split.
    + exists (h ++ i ++ s2l " data in file "). eexists. unfold h. rewrite <- !app_assoc. reflexivity.
    + exists (h ++ i ++ s2l " data in file " ++ f ++ s2l "using a " ++ s2l "boundary latitude of "). eexists. unfold h. rewrite <- !app_assoc. reflexivity.
Qed.
Lemma about_notes b s vecs comps o p notes v : about_output b s vecs comps o = Ok (p, notes, v) -> exists x, notes = notes_of s ++ x.
Proof.
  unfold about_output. intros E. destruct (lookup _ vecs) as [f|]; [|injection E as _ <- _; exists []; symmetry; apply app_nil_r].
  destruct (lookup _ comps) as [[|c cs]|]; try discriminate. injection E as _ <- _. eexists. reflexivity.
Qed.
Theorem C158_notes_partial fresh columns b s vecs comps outs m m' o : meta_all fresh columns b s vecs comps outs m = Ok m' -> NoDup outs -> In o outs -> lookup o m = None ->
  exists e' t, lookup o m' = Some e' /\ e' LNotes = VText t /\ told s t /\ e' LFill = VNan.
Proof.
  intros E N I L. destruct (all_one fresh columns b s vecs comps outs m m' o E N I) as (p & notes & v & m1 & m2 & A & B & _ & C & D & _).
  destruct (add_new fresh columns m1 o p false notes v m2 B) as [(e & X & Y & Z) _]; [right; congruence|]. exists e, notes. split; [congruence|]. split; [exact Y|]. split; [|exact Z].
  destruct (about_notes b s vecs comps o p notes v A) as (x & ->). apply notes_told.
Qed.
(** Vectors: the notes also tell the scaling function. *)
Theorem C158_scaling_partial fresh columns b u d s vecs comps outs m m' v f x : boundary_words b u d -> meta_all fresh columns b s vecs comps outs m = Ok m' -> NoDup outs ->
  lookup v vecs = Some f -> ~ mentions ("_"%char :: b) v -> In (out_name v b ++ x) outs -> lookup (out_name v b ++ x) m = None ->
  exists e' t, lookup (out_name v b ++ x) m' = Some e' /\ e' LNotes = VText t /\ told s t /\ mentions (match f with Some f => f | None => s2l "None" end) t.
Proof.
  intros W E N LV M I L. destruct (all_one fresh columns b s vecs comps outs m m' _ E N I) as (p & notes & v' & m1 & m2 & A & B & _ & C & D & _).
  destruct (add_new fresh columns m1 _ p false notes v' m2 B) as [(e & X & Y & Z) _]; [right; congruence|]. exists e, notes. split; [congruence|]. split; [exact Y|].
  destruct (about_notes b s vecs comps _ p notes v' A) as (y & EQ). split; [rewrite EQ; apply notes_told|].
  unfold about_output, out_name in A. rewrite <- app_assoc in A. cbn [app] in A. destruct (words_facts b u d W) as (_ & _ & Nb & _). rewrite before_first in A by assumption. rewrite LV in A.
  destruct (lookup _ comps) as [[|c cs]|]; try discriminate. injection A as _ <- _. destruct f as [f|]; exists (notes_of s ++ s2l " and was scaled using "), []; rewrite app_nil_r, <- app_assoc; reflexivity.
Qed.
(** A second call, with whatever boundary: nothing is written. *)
Theorem C158_second_call_refuted fresh columns b s s' vecs comps outs m m' : meta_all fresh columns b s vecs comps outs m = Ok m' ->
  meta_all fresh columns b s' vecs comps outs m' = Ok m'.
Proof.
  intros E. assert (H : forall o, In o outs -> exists e, lookup o m' = Some e) by (apply (all_any fresh columns b s vecs comps outs m m' E)).
  assert (T : forall o, In o outs -> exists p n v, about_output b s' vecs comps o = Ok (p, n, v)).
  { clear H. revert m E. induction outs as [|q outs IH]; intros m E o I; [destruct I|]. cbn [meta_all] in E. destruct (about_output b s vecs comps q) as [[[p n] v]|] eqn:A; cbn [bind] in E; [|discriminate].
    destruct (add_meta fresh columns m q p false n v) as [m1|]; cbn [bind] in E; [|discriminate]. destruct I as [<-|I]; [|exact (IH m1 E o I)].
    unfold about_output in *. destruct (lookup _ vecs); [|eexists; eexists; eexists; reflexivity]. destruct (lookup _ comps) as [[|c cs]|]; try discriminate. eexists; eexists; eexists; reflexivity. }
  clear E. induction outs as [|q outs IH]; [reflexivity|]. cbn [meta_all]. destruct (T q (or_introl eq_refl)) as (p & n & v & ->). cbn [bind]. destruct (H q (or_introl eq_refl)) as (e & L).
  rewrite (add_kept fresh columns m' q p n v e L). cbn [bind]. apply IH; intros o I; [apply H|apply T]; right; exact I.
Qed.

(** ** C159: a scaled variable gets the metadata of that variable *)
Lemma about_variable b u d s vecs comps v : boundary_words b u d -> ~ mentions ("_"%char :: b) v -> lookup v vecs = None -> about_output b s vecs comps (out_name v b) = Ok (v, notes_of s, false).
Proof.
  intros W M L. unfold about_output, out_name. destruct (words_facts b u d W) as (_ & _ & N & _). pose proof (before_first b v [] N M) as B. rewrite app_nil_r in B. rewrite B, L. reflexivity.
Qed.
Theorem C159_own_metadata_partial fresh columns b u d s vecs comps outs (m m' : meta) v (e : mentry) n t : boundary_words b u d -> untitled v -> ~ mentions ("_"%char :: b) v ->
  meta_all fresh columns b s vecs comps outs m = Ok m' -> NoDup outs -> In (out_name v b) outs -> lookup v vecs = None -> lookup (out_name v b) m = None ->
  lookup v m = Some e -> e LName = VText n -> e LDesc = VText t ->
  exists e', lookup (out_name v b) m' = Some e' /\ e' LName = VText (u ++ " "%char :: n) /\ e' LDesc = VText (d ++ t) /\ e' LFill = VNan /\ forall l, In l columns -> ~ changed l -> e' l = e l.
Proof.
  intros W U M E N I LV LO L EN ED. destruct (all_one fresh columns b s vecs comps outs m m' _ E N I) as (p & notes & v' & m1 & m2 & A & B & K & C & D & _).
  rewrite (about_variable b u d s vecs comps v W M LV) in A. injection A as <- <- <-.
  destruct (C157_variable_partial fresh columns m1 v v b u d false (notes_of s) e n t W U (K _ _ L) EN ED) as (m3 & e' & X1 & X2 & X3 & X4 & X5 & _ & X6); [right; congruence|].
  assert (m3 = m2) by congruence. subst m3. exists e'. split; [congruence|]. auto.
Qed.
(** A variable whose name has the boundary in it: the output gets the units of another. *)
Definition ex_entry (n un : string) : mentry := fun l => match l with LName => VText (s2l n) | LDesc => VText (s2l n) | LUnits => VText (s2l un) | LMin => VOther 0 | LMax => VOther 9 | LNotes => VText [] | _ => VOther (-1) end.
Definition ex_new : mentry := fun l => match l with LUnits => VText [] | _ => VNan end.
Definition ex_labels : list label := [LName; LDesc; LUnits; LMin; LMax; LFill; LNotes].
Definition ex_source : source := One (s2l "image", s2l "f.ocb", s2l "74.00").
Definition get (r : res meta) (o : string) (l : label) : option mval := match r with Ok m => option_map (fun e => e l) (lookup (s2l o) m) | Err _ => None end.
Theorem C159_other_variable_refuted : let m := [(s2l "r", ex_entry "Radius" "deg"); (s2l "r_ocb_old", ex_entry "Old" "km")] in
  let r := meta_all ex_new ex_labels (s2l "ocb") ex_source [] [] [out_name (s2l "r_ocb_old") (s2l "ocb")] m in
  get r "r_ocb_old_ocb" LUnits = Some (VText (s2l "deg")) /\ get r "r_ocb_old_ocb" LName = Some (VText (s2l "OCB Radius")) /\ get r "r_ocb_old" LUnits = Some (VText (s2l "km")).
Proof. vm_compute. auto. Qed.

(** ** C160: metadata of vectors *)
Theorem C160_vector_partial fresh columns b u d s vecs comps outs (m m' : meta) v f c cs x (e : mentry) t : boundary_words b u d -> untitled v -> ~ mentions ("_"%char :: b) v ->
  meta_all fresh columns b s vecs comps outs m = Ok m' -> NoDup outs -> let o := out_name v b ++ "_"%char :: x in In o outs -> lookup v vecs = Some f -> lookup (out_name v b) comps = Some (c :: cs) -> lookup o m = None ->
  lookup c m = Some e -> e LDesc = VText t ->
  exists e', lookup o m' = Some e' /\ e' LUnits = e LUnits /\ e' LMin = e LMin /\ e' LMax = e LMax /\ e' LFill = VNan /\ e' LName = VText (u ++ " "%char :: spaced v) /\ e' LDesc = VText (d ++ t).
Proof.
  intros W U M E N o I LV LC LO L ED. destruct (all_one fresh columns b s vecs comps outs m m' _ E N I) as (p & notes & v' & m1 & m2 & A & B & K & C & D & _).
  destruct (words_facts b u d W) as (_ & Db & Nb & _).
  assert (EO : o = v ++ "_"%char :: b ++ "_"%char :: x) by (unfold o, out_name; rewrite <- app_assoc; reflexivity).
  assert (BO : bound_of o = b) by (apply (bound_of_out_more v b u d x U W)).
  unfold about_output in A. rewrite EO in A. rewrite before_first in A by assumption. rewrite LV in A. change (v ++ "_"%char :: b) with (out_name v b) in A. rewrite LC in A. injection A as <- <- <-.
  unfold add_meta in B. rewrite (add_guard false o m1) in B by (right; congruence). rewrite (K _ _ L), ED in B. rewrite BO, Db in B. cbn [joined_text bind] in B. injection B as <-.
  match goal with H : lookup o (set_entry fresh m1 o ?new) = _ |- _ => destruct (set_entry_same fresh m1 o new) as (e' & Y & Z) end. exists e'. split; [congruence|].
  split; [apply Z; reflexivity|]. split; [apply Z; reflexivity|]. split; [apply Z; reflexivity|]. split; [apply Z; reflexivity|]. split; [|apply Z; reflexivity].
  rewrite (Z LName _ eq_refl). f_equal. apply (new_name_of o v b u d ("_"%char :: x) BO W EO M).
Qed.
(** The names of the components are the same; the radii have the units of the vector. *)
Theorem C160_alike_refuted : let outs := map (used_name (s2l "eab") (s2l "vel")) vect_attrs in
  let r := meta_all ex_new ex_labels (s2l "eab") ex_source [(s2l "vel", None)] [(s2l "vel_eab", [s2l "vel_n"])] outs [(s2l "vel_n", ex_entry "North" "m/s")] in
  NoDup outs /\ (forall o, In o outs -> match r with Ok m => exists e, lookup o m = Some e /\ e LName = VText (s2l "EAB vel") /\ e LUnits = VText (s2l "m/s") | Err _ => False end) /\ In (s2l "vel_eab_scaled_r") outs.
Proof.
  split; [vm_compute; repeat (constructor; [cbn; intuition discriminate|]); constructor|]. split; [|vm_compute; auto 10].
  intros o I. vm_compute in I. repeat (destruct I as [<-|I]; [vm_compute; eexists; split; [reflexivity|split; reflexivity]|]). destruct I.
Qed.
(** With the open closed boundary the radii have no boundary, no attribute and no units. *)
Theorem C160_radius_refuted : let outs := map (used_name (s2l "ocb") (s2l "vel")) vect_attrs in
  let r := meta_all ex_new ex_labels (s2l "ocb") ex_source [(s2l "vel", None)] [(s2l "vel_ocb", [s2l "vel_n"])] outs [(s2l "vel_n", ex_entry "North" "m/s")] in
  In (s2l "vel_unscaled_r") outs /\ get r "vel_ocb_n" LName = Some (VText (s2l "OCB vel")) /\ get r "vel_unscaled_r" LName = Some (VText (s2l "vel")) /\ get r "vel_unscaled_r" LDesc = Some (VText (s2l "vel")) /\
  get r "vel_unscaled_r" LUnits = Some (VText []).
Proof. vm_compute. auto 10. Qed.
(** A vector of which no component is a variable: refused. *)
Theorem C160_no_component fresh columns b u d s vecs comps outs (m : meta) v f x : boundary_words b u d -> ~ mentions ("_"%char :: b) v -> lookup v vecs = Some f -> lookup (out_name v b) comps = None ->
  meta_all fresh columns b s vecs comps ((out_name v b ++ x) :: outs) m = Err KeyError.
Proof.
  intros W M LV LC. cbn [meta_all]. destruct (words_facts b u d W) as (_ & _ & Nb & _). unfold about_output. replace (out_name v b ++ x) with (v ++ "_"%char :: b ++ x) by (unfold out_name; rewrite <- app_assoc; reflexivity). rewrite before_first by assumption. rewrite LV. unfold out_name in LC. unfold str in *. rewrite LC. reflexivity.
Qed.
(** Whether a name is untitled can be read off its pieces. *)
Lemma piece_split p v : piece p v -> In p (split "_" v).
Proof.
  intros [N (a & c & E)]. assert (S : split "_" ("_"%char :: v ++ ["_"%char]) = [] :: split "_" v ++ [[]]) by (cbn [split]; rewrite Ascii.eqb_refl; f_equal; apply (split_cat v [])).
  rewrite E, split_cat, split_app in S by exact N. destruct (split_shape a) as (q & t & Ea & _). rewrite Ea in S. cbn [app] in S. injection S as _ S.
  destruct (split_shape c) as (q' & t' & Ec & _). rewrite Ec in S. destruct (exists_last (l := q' :: t')) as (r & z & Er); [discriminate|]. rewrite Er in S.
  change (t ++ p :: r ++ [z]) with (t ++ (p :: r) ++ [z]) in S. rewrite app_assoc in S. apply app_inj_tail in S. destruct S as [<- _]. apply in_or_app. right. left. reflexivity.
Qed.
Lemma untitled_pieces v : forallb (fun p => negb (member p bounds)) (split "_" v) = true -> untitled v.
Proof.
  intros F p u d H W. apply piece_split in H. rewrite forallb_forall in F. specialize (F p H). apply negb_true_iff in F. assert (member p bounds = true) by (apply bounds_words; eauto). congruence.
Qed.
Lemma not_mentions w v : contains w v = false -> ~ mentions w v.
Proof. intros F H. apply mentions_spec in H. congruence. Qed.
Definition ex_meta : meta := [(s2l "mlat_north", ex_entry "Latitude" "deg"); (s2l "vel_n", ex_entry "North" "m/s"); (s2l "r_corr_ocb", ex_entry "Mine" "deg")].
Definition ex_outs : list str := map s2l ["mlat_north_ocb"; "r_corr_ocb"; "vel_ocb_n"; "big_e_ocb"].
Definition ex_run : res meta := meta_all ex_new ex_labels (s2l "ocb") ex_source [(s2l "vel", Some (s2l "normal_evar"))] [(s2l "vel_ocb", [s2l "vel_n"])] ex_outs ex_meta.
Example C156_case : (exists m, ex_run = Ok m) /\ get ex_run "r_corr_ocb" LName = Some (VText (s2l "Mine")) /\ get ex_run "vel_n" LName = Some (VText (s2l "North")).
Proof. split; [eexists; vm_compute; reflexivity|]. split; vm_compute; reflexivity. Qed.
Example C157_case : boundary_words (s2l "ocb") (s2l "OCB") (s2l "Open Closed field-line Boundary") /\ untitled (s2l "mlat_north") /\
  get ex_run "mlat_north_ocb" LName = Some (VText (s2l "OCB Latitude")) /\ get ex_run "big_e_ocb" LName = Some (VText (s2l "OCB big e")) /\
  get ex_run "big_e_ocb" LDesc = Some (VText (s2l "Open Closed field-line Boundary big e")).
Proof. split; [constructor|]. split; [apply untitled_pieces; vm_compute; reflexivity|]. split; [vm_compute; reflexivity|]. split; vm_compute; reflexivity. Qed.
Example C158_case : NoDup ex_outs /\ get ex_run "big_e_ocb" LNotes = Some (VText (s2l "Boundary obtained from image data in file f.ocbusing a boundary latitude of 74.00")) /\
  get ex_run "vel_ocb_n" LNotes = Some (VText (s2l "Boundary obtained from image data in file f.ocbusing a boundary latitude of 74.00 and was scaled using normal_evar")).
Proof. split; [vm_compute; repeat (constructor; [cbn; intuition discriminate|]); constructor|]. split; vm_compute; reflexivity. Qed.
Example C159_case : ~ mentions (s2l "_ocb") (s2l "mlat_north") /\ get ex_run "mlat_north_ocb" LUnits = Some (VText (s2l "deg")) /\ get ex_run "mlat_north_ocb" LMax = Some (VOther 9) /\ get ex_run "mlat_north_ocb" LFill = Some VNan.
Proof. split; [apply not_mentions; vm_compute; reflexivity|]. vm_compute. auto. Qed.
Example C160_case : untitled (s2l "vel") /\ get ex_run "vel_ocb_n" LUnits = Some (VText (s2l "m/s")) /\ get ex_run "vel_ocb_n" LDesc = Some (VText (s2l "Open Closed field-line BoundaryNorth")).
Proof. split; [apply untitled_pieces; vm_compute; reflexivity|]. split; vm_compute; reflexivity. Qed.

Print Assumptions C156_kept.
Print Assumptions C156_overwrite.
Print Assumptions C157_variable_partial.
Print Assumptions C157_no_metadata_partial.
Print Assumptions C157_other_boundary_refuted.
Print Assumptions C158_notes_partial.
Print Assumptions C158_scaling_partial.
Print Assumptions C158_second_call_refuted.
Print Assumptions C159_own_metadata_partial.
Print Assumptions C159_other_variable_refuted.
Print Assumptions C160_vector_partial.
Print Assumptions C160_alike_refuted.
Print Assumptions C160_radius_refuted.
Print Assumptions C160_no_component.
