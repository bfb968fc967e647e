(** Lemmas about PysatModel: names of the output, roles and attributes of vectors. *)
From Coq Require Import String Ascii ZArith QArith List Bool Lia.
From Verif Require Import PyBase TimeModel FilesModel FilesProofs SmagModel GeneralProofs2 PysatModel PysatSpec PysatProofs.
Import ListNotations.
Open Scope string_scope.
Open Scope list_scope.

(** ** Names *)
Lemma mentions_cons w c s : mentions w s -> mentions w (c :: s).
Proof. intros (a & b & ->). exists (c :: a), b. reflexivity. Qed.
(** "ocb" cannot straddle an underscore. *)
Lemma ocb_inside e t : begins (s2l "ocb") (e ++ "_"%char :: t) -> mentions (s2l "ocb") e.
Proof.
  intros [r H]. destruct e as [|a [|b [|c e]]]; cbn in H; try discriminate; injection H as H; subst; try discriminate.
  - exists [], e. reflexivity.
Qed.
Lemma scan_name old new e t : (forall e', begins old (e' ++ "_"%char :: t) -> e' <> [] -> mentions (s2l "ocb") e') ->
  ~ mentions (s2l "ocb") e -> replace_aux 0 old new (e ++ "_"%char :: t) = e ++ replace_aux 0 old new ("_"%char :: t).
Proof.
  intros H. induction e as [|c e IH]; intros N; [reflexivity|].
  change ((c :: e) ++ "_"%char :: t) with (c :: (e ++ "_"%char :: t)). revert IH. generalize (replace_aux 0 old new ("_"%char :: t)). intros R IH. cbn [replace_aux].
  destruct (prefix old (c :: e ++ "_"%char :: t)) eqn:P.
  - exfalso. apply N. apply (H (c :: e)); [apply prefix_spec; exact P|discriminate].
  - cbn [app]. f_equal. apply IH. intros M. apply N. apply mentions_cons. exact M.
Qed.
Lemma used_form b e v : ~ mentions (s2l "ocb") e -> used_name b e v = e ++ replace ("_"%char :: b ++ "_"%char :: v) "_ocb_" "_".
Proof.
  intros N. unfold used_name, replace. apply scan_name; [|exact N].
  intros e' [r H] Ne. destruct e' as [|c e']; [congruence|]. cbn in H. injection H as -> H. apply mentions_cons. apply (ocb_inside e' (b ++ "_"%char :: v)). exists ("_"%char :: r). exact H.
Qed.
Lemma made_form b e v : ~ mentions (s2l "ocb") e -> forall t, replace ("_"%char :: b ++ "_"%char :: v) "_ocb_" "_" = "_"%char :: t ->
  made_name b e v = if str_eqb b "ocb" then e ++ "_"%char :: t else e ++ replace ("_"%char :: t) "ocb" b.
Proof.
  intros N t E. unfold made_name. fold (used_name b e v). rewrite used_form by exact N. rewrite E.
  destruct (str_eqb b "ocb"); [reflexivity|]. unfold replace. apply scan_name; [|exact N].
  intros e' H _. exact (ocb_inside e' t H).
Qed.

(** ** Dictionaries *)
Lemma lookup_overlay {A} k : forall (own d : list (str * A)), NoDup (map fst own) ->
  lookup k (overlay own d) = match lookup k own with Some a => Some a | None => lookup k d end.
Proof.
  unfold overlay. induction own as [|[k' a] own IH]; intros d N; [reflexivity|]. cbn [fold_left fst snd map lookup] in *. apply NoDup_cons_iff in N. destruct N as [NI N].
  rewrite IH by exact N. rewrite lookup_setkey. destruct (str_eqb k k') eqn:E; [|reflexivity].
  apply str_eqb_spec in E. subst k'. destruct (lookup k own) as [a'|] eqn:L; [|reflexivity].
  exfalso. apply NI. clear -L. induction own as [|[k1 a1] own IH]; [discriminate|]. cbn [lookup map fst] in *. destruct (str_eqb k k1) eqn:E; [apply str_eqb_spec in E; left; congruence|right; exact (IH L)].
Qed.

(** ** Roles *)
Definition role (evar curl : list str) (v : str * option scaling) : str * option scaling :=
  (fst v, if member (fst v) evar then Some SEvar else if member (fst v) curl then Some SCurl else snd v).
Definition described (evar curl : list str) (v : str * option scaling) : bool :=
  member (fst v) evar || member (fst v) curl || match snd v with Some _ => true | None => false end.
Definition left_evar (keys evar : list str) : list str := filter (fun x => negb (member x keys)) evar.
Definition left_curl (keys evar curl : list str) : list str := filter (fun x => negb (member x keys && negb (member x evar))) curl.
Lemma remove_first_member k k' l : k' <> k -> member k' (remove_first k l) = member k' l.
Proof.
  intros N. induction l as [|a l IH]; [reflexivity|]. cbn [remove_first member existsb]. destruct (str_eqb k a) eqn:E.
  - apply str_eqb_spec in E. subst a. cbn [member existsb]. rewrite (str_eqb_neq k' k N). reflexivity.
  - cbn [member existsb]. fold (member k' (remove_first k l)). fold (member k' l). rewrite IH. reflexivity.
Qed.
Lemma remove_first_filter k l : NoDup l -> remove_first k l = filter (fun x => negb (str_eqb x k)) l.
Proof.
  induction l as [|a l IH]; intros N; [reflexivity|]. apply NoDup_cons_iff in N. destruct N as [NI N]. cbn [remove_first filter].
  destruct (str_eqb k a) eqn:E.
  - apply str_eqb_spec in E. subst a. rewrite str_eqb_refl. cbn [negb]. clear IH N. induction l as [|b l IH]; [reflexivity|]. cbn [filter].
    rewrite (str_eqb_neq b k); [|intros ->; apply NI; left; reflexivity]. cbn [negb]. f_equal. apply IH. intros I. apply NI. right. exact I.
  - rewrite (str_eqb_neq a k); [|intros ->; rewrite str_eqb_refl in E; discriminate]. cbn [negb]. f_equal. apply IH. exact N.
Qed.
Lemma filter_filter {A} (p q : A -> bool) l : filter p (filter q l) = filter (fun x => q x && p x) l.
Proof. induction l as [|a l IH]; [reflexivity|]. cbn [filter]. destruct (q a); cbn [filter andb]; [destruct (p a); rewrite IH; reflexivity|exact IH]. Qed.
Lemma NoDup_remove_first k l : NoDup l -> NoDup (remove_first k l).
Proof. intros N. rewrite remove_first_filter by exact N. apply NoDup_filter. exact N. Qed.
Lemma str_eqb_sym a b : str_eqb a b = str_eqb b a.
Proof. destruct (str_eqb a b) eqn:E; symmetry; [apply str_eqb_spec in E; subst; apply str_eqb_refl|]. apply str_eqb_neq. intros ->. rewrite str_eqb_refl in E. discriminate. Qed.
Lemma roles_spec : forall vecs evar curl, NoDup (map fst vecs) -> NoDup evar -> NoDup curl ->
  roles evar curl vecs = if forallb (described evar curl) vecs then Ok (map (role evar curl) vecs, left_evar (map fst vecs) evar, left_curl (map fst vecs) evar curl) else Err ValueError.
Proof.
  induction vecs as [|[k s] r IH]; intros evar curl NV NE NC.
  - cbn. f_equal. f_equal; [f_equal|]; unfold left_evar, left_curl; cbn [member existsb andb negb].
    + induction evar as [|a l IH]; [reflexivity|]. cbn [filter]. f_equal. apply IH. apply NoDup_cons_iff in NE. apply NE.
    + induction curl as [|a l IH]; [reflexivity|]. cbn [filter]. f_equal. apply IH. apply NoDup_cons_iff in NC. apply NC.
  - cbn [map fst] in NV. apply NoDup_cons_iff in NV. destruct NV as [NI NV]. cbn [roles forallb map fst].
    assert (DI : forall evar' curl', (forall k', k' <> k -> member k' evar' = member k' evar) -> (forall k', k' <> k -> member k' curl' = member k' curl) ->
      forallb (described evar' curl') r = forallb (described evar curl) r /\ map (role evar' curl') r = map (role evar curl) r).
    { clear -NI. intros evar' curl' HE HC. induction r as [|[k1 s1] r IH]; [split; reflexivity|]. cbn [map fst] in NI.
      destruct IH as [A B]; [intros I; apply NI; right; exact I|]. assert (N1 : k1 <> k) by (intros ->; apply NI; left; reflexivity).
      cbn [forallb map]. rewrite A, B. unfold described, role. cbn [fst snd]. rewrite (HE k1 N1), (HC k1 N1). split; reflexivity. }
    assert (MK : forall x, In x (map fst r) -> x <> k) by (intros x I ->; contradiction).
    unfold described at 1. unfold role at 1. cbn [fst snd].
    destruct (member k evar) eqn:ME.
    + rewrite (IH (remove_first k evar) curl NV (NoDup_remove_first _ _ NE) NC).
      destruct (DI (remove_first k evar) curl) as [-> ->]; [intros k' N'; apply remove_first_member; exact N'|reflexivity|].
      cbn [orb andb]. destruct (forallb (described evar curl) r); [|reflexivity]. cbn [bind]. f_equal. f_equal; [f_equal|].
      * unfold left_evar. rewrite remove_first_filter by exact NE. rewrite filter_filter. apply filter_ext. intros x. cbn [member existsb]. fold (member x (map fst r)). destruct (str_eqb x k), (member x (map fst r)); reflexivity.
      * unfold left_curl. apply filter_ext. intros x. cbn [member existsb]. fold (member x (map fst r)). fold (member x evar). destruct (str_eqb x k) eqn:Ex.
        -- apply str_eqb_spec in Ex. subst x. rewrite ME. cbn [orb andb negb]. assert (MR : member k (map fst r) = false) by (destruct (member k (map fst r)) eqn:Z; [apply member_spec in Z; contradiction|reflexivity]). rewrite MR. reflexivity.
        -- cbn [orb]. rewrite remove_first_member; [reflexivity|]. intros ->. rewrite str_eqb_refl in Ex. discriminate.
    + destruct (member k curl) eqn:MC.
      * rewrite (IH evar (remove_first k curl) NV NE (NoDup_remove_first _ _ NC)).
        destruct (DI evar (remove_first k curl)) as [-> ->]; [reflexivity|intros k' N'; apply remove_first_member; exact N'|].
        cbn [orb andb]. destruct (forallb (described evar curl) r); [|reflexivity]. cbn [bind]. f_equal. f_equal; [f_equal|].
        -- unfold left_evar. apply filter_ext_in. intros x Ix. cbn [member existsb]. fold (member x (map fst r)). destruct (str_eqb x k) eqn:Ex; [|reflexivity].
           apply str_eqb_spec in Ex. subst x. apply member_spec in Ix. congruence.
        -- unfold left_curl. rewrite remove_first_filter by exact NC. rewrite filter_filter. apply filter_ext. intros x. cbn [member existsb]. fold (member x (map fst r)). fold (member x evar). destruct (str_eqb x k) eqn:Ex; cbn [negb andb orb]; [|reflexivity].
           apply str_eqb_spec in Ex. subst x. rewrite ME. reflexivity.
      * cbn [orb]. destruct s as [s|]; [|reflexivity]. rewrite (IH evar curl NV NE NC). cbn [andb]. destruct (forallb (described evar curl) r); [|reflexivity]. cbn [bind]. f_equal. f_equal; [f_equal|].
        -- unfold left_evar. apply filter_ext_in. intros x Ix. cbn [member existsb]. fold (member x (map fst r)). destruct (str_eqb x k) eqn:Ex; [|reflexivity].
           apply str_eqb_spec in Ex. subst x. apply member_spec in Ix. congruence.
        -- unfold left_curl. apply filter_ext_in. intros x Ix. cbn [member existsb]. fold (member x (map fst r)). fold (member x evar). destruct (str_eqb x k) eqn:Ex; [|reflexivity].
           apply str_eqb_spec in Ex. subst x. apply member_spec in Ix. congruence.
Qed.
