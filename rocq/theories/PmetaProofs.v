(** Lemmas about PmetaModel. *)
From Coq Require Import String Ascii ZArith List Bool Lia.
From Verif Require Import PyBase TimeModel FilesModel FilesSpec FilesProofs SmagModel PysatModel PysatSpec PysatProofs PmetaModel PmetaSpec.
Import ListNotations.
Open Scope list_scope.

(** ** Entries *)
Lemma lookup_setkey {A} k k' (v : A) d : lookup k (setkey k' v d) = if str_eqb k k' then Some v else lookup k d.
Proof.
  induction d as [|[k2 w] d IH]; cbn [setkey lookup]; [reflexivity|]. destruct (str_eqb k' k2) eqn:E; cbn [lookup].
  - apply str_eqb_spec in E. subst k2. destruct (str_eqb k k'); reflexivity.
  - rewrite IH. destruct (str_eqb k k2) eqn:E2; [|reflexivity]. apply str_eqb_spec in E2. subst k2. destruct (str_eqb k k') eqn:E3; [|reflexivity]. apply str_eqb_spec in E3. subst. rewrite str_eqb_refl in E. discriminate.
Qed.
Lemma str_eqb_ne a b : a <> b -> str_eqb a b = false.
Proof. intros N. destruct (str_eqb a b) eqn:E; [apply str_eqb_spec in E; contradiction|reflexivity]. Qed.
Lemma label_eqb_refl l : label_eqb l l = true.
Proof. destruct l; try reflexivity. apply str_eqb_refl. Qed.
Lemma label_eqb_spec a b : label_eqb a b = true <-> a = b.
Proof. split; [|intros ->; apply label_eqb_refl]. destruct a, b; cbn; intros H; try discriminate; try reflexivity. apply str_eqb_spec in H. congruence. Qed.
Lemma given_columns l columns (e : mentry) : In l columns -> given (map (fun l => (l, e l)) columns) l = Some (e l).
Proof.
  induction columns as [|c columns IH]; intros I; [destruct I|]. cbn [map given]. destruct (label_eqb l c) eqn:E; [apply label_eqb_spec in E; subst; reflexivity|].
  apply IH. destruct I as [->|I]; [rewrite label_eqb_refl in E; discriminate|exact I].
Qed.
(** ** Names *)
Lemma find_first w v t : ~ In "_"%char w -> ~ mentions ("_"%char :: w) v -> find ("_"%char :: w) (v ++ "_"%char :: w ++ t) = Some (length v).
Proof.
  intros N. induction v as [|a v IH]; intros M.
  - cbn [app length]. unfold find. assert (P : prefix ("_"%char :: w) ("_"%char :: w ++ t) = true) by (apply prefix_spec; exists t; reflexivity).
    destruct t; cbn [find]; cbn in P |- *; rewrite P; reflexivity.
  - cbn [app find length]. destruct (prefix ("_"%char :: w) (a :: v ++ "_"%char :: w ++ t)) eqn:P.
    + exfalso. apply prefix_spec in P. destruct P as [r E]. cbn [app] in E. injection E as -> E.
      (* the occurrence lies inside [v], or ends after the underscore *)
      assert (G : exists q, v = w ++ q).
      { clear - N E. revert v E. induction w as [|c w IHw]; intros v E; [exists v; reflexivity|]. destruct v as [|x v].
        - exfalso. apply N. left. injection E as E _. exact (eq_sym E).
        - injection E as -> E. assert (exists s, v ++ "_"%char :: s = w ++ r) as [s Es] by (exists (c :: w ++ t); exact E).
          clear E. assert (NW : ~ In "_"%char w) by (intros I; apply N; right; exact I).
          assert (H : forall w v s, ~ In "_"%char w -> v ++ "_"%char :: s = w ++ r -> exists q, v = w ++ q).
          { clear. induction w as [|c w IHw]; intros v s NW E; [exists v; reflexivity|]. destruct v as [|x v]; [exfalso; apply NW; left; injection E as E _; exact (eq_sym E)|].
            injection E as -> E. destruct (IHw v s) as [q ->]; [intros I; apply NW; right; exact I|exact E|]. exists q. reflexivity. }
          destruct (H w v s NW Es) as [q ->]. exists q. reflexivity. }
      destruct G as [q ->]. apply M. exists [], q. reflexivity.
    + rewrite IH; [reflexivity|]. intros (x & y & ->). apply M. exists (a :: x), y. reflexivity.
Qed.
Lemma before_first w v t : ~ In "_"%char w -> ~ mentions ("_"%char :: w) v -> before ("_"%char :: w) (v ++ "_"%char :: w ++ t) = v.
Proof. intros N M. unfold before. rewrite find_first by assumption. rewrite firstn_app, Nat.sub_diag, firstn_all. cbn. apply app_nil_r. Qed.
Lemma split_shape s : exists q t, split "_" s = q :: t /\ ~ In "_"%char q /\ (exists c, s ++ ["_"%char] = q ++ "_"%char :: c) /\
  forall p, In p t -> ~ In "_"%char p /\ exists a c, s ++ ["_"%char] = a ++ "_"%char :: p ++ "_"%char :: c.
Proof.
  induction s as [|x s (q & t & E & Nq & (c & Hc) & T)].
  - exists [], []. split; [reflexivity|]. split; [intros []|]. split; [exists []; reflexivity|intros p []].
  - cbn [split]. destruct (Ascii.eqb_spec x "_") as [->|N].
    + exists [], (split "_" s). split; [reflexivity|]. split; [intros []|]. split; [exists (s ++ ["_"%char]); reflexivity|]. intros p I. rewrite E in I. destruct I as [<-|I].
      * split; [exact Nq|]. exists [], c. cbn [app]. rewrite <- Hc. reflexivity.
      * destruct (T p I) as (Np & a & c' & H). split; [exact Np|]. exists ("_"%char :: a), c'. cbn [app]. rewrite <- H. reflexivity.
    + rewrite E. exists (x :: q), t. split; [reflexivity|]. split; [intros [I|I]; [congruence|contradiction]|]. split; [exists c; cbn [app]; rewrite <- Hc; reflexivity|].
      intros p I. destruct (T p I) as (Np & a & c' & H). split; [exact Np|]. exists (x :: a), c'. cbn [app]. rewrite <- H. reflexivity.
Qed.
Lemma split_piece p s : In p (split "_" s) -> piece p s.
Proof.
  destruct (split_shape s) as (q & t & E & Nq & (c & Hc) & T). rewrite E. intros [<-|I].
  - split; [exact Nq|]. exists [], c. cbn [app]. rewrite <- Hc. reflexivity.
  - destruct (T p I) as (Np & a & c' & H). split; [exact Np|]. exists ("_"%char :: a), c'. cbn [app]. rewrite <- H. reflexivity.
Qed.
Lemma split_cat s r : split "_" (s ++ "_"%char :: r) = split "_" s ++ split "_" r.
Proof.
  induction s as [|x s IH]; [reflexivity|]. cbn [app split]. rewrite IH. destruct (Ascii.eqb x "_"); [reflexivity|].
  destruct (split_shape s) as (q & t & E & _). rewrite E. reflexivity.
Qed.
Lemma bounds_words p : member p bounds = true <-> exists u d, boundary_words p u d.
Proof.
  rewrite member_spec. unfold bounds. cbn [map In]. split.
  - intros [<-|[<-|[<-|[]]]]; eexists; eexists; constructor.
  - intros (u & d & H). inversion H; tauto.
Qed.
Lemma words_facts b u d : boundary_words b u d -> upper b = u /\ bound_desc b = d /\ ~ In "_"%char b /\ ~ In "_"%char u /\ member b bounds = true /\ b <> [].
Proof.
  intros H. inversion H; subst; (split; [vm_compute; reflexivity|]; split; [vm_compute; reflexivity|]; split; [cbn; intuition congruence|]; split; [cbn; intuition congruence|]; split; [vm_compute; reflexivity|discriminate]).
Qed.
Lemma first_bound_app l r : (forall p, In p l -> member p bounds = false) -> first_bound (l ++ r) = first_bound r.
Proof. induction l as [|p l IH]; intros H; [reflexivity|]. cbn [app first_bound]. rewrite (H p) by (left; reflexivity). apply IH. intros q I. apply H. right. exact I. Qed.
Lemma untitled_split v : untitled v -> forall p, In p (split "_" v) -> member p bounds = false.
Proof.
  intros U p I. destruct (member p bounds) eqn:M; [|reflexivity]. exfalso. apply bounds_words in M. destruct M as (u & d & W). exact (U p u d (split_piece p v I) W).
Qed.
(** The boundary named by [v_b] and by [v_b_...]. *)
Lemma bound_of_out v b u d : untitled v -> boundary_words b u d -> bound_of (out_name v b) = b.
Proof.
  intros U W. destruct (words_facts b u d W) as (_ & _ & N & _ & M & _). unfold bound_of, out_name. rewrite split_cat, first_bound_app by (apply untitled_split; exact U).
  rewrite split_plain by exact N. cbn [first_bound]. rewrite M. reflexivity.
Qed.
Lemma bound_of_out_more v b u d x : untitled v -> boundary_words b u d -> bound_of (out_name v b ++ "_"%char :: x) = b.
Proof.
  intros U W. destruct (words_facts b u d W) as (_ & _ & N & _ & M & _). unfold bound_of, out_name. rewrite <- app_assoc. cbn [app]. rewrite split_cat, first_bound_app by (apply untitled_split; exact U).
  rewrite split_app by exact N. cbn [first_bound]. rewrite M. reflexivity.
Qed.
Lemma replace_spaced s : replace s "_" " " = spaced s.
Proof.
  unfold replace, spaced. induction s as [|c s IH]; [reflexivity|]. cbn [map]. change (s2l "_") with ["_"%char]. change (s2l " ") with [" "%char]. cbn [replace_aux prefix].
  rewrite Ascii.eqb_sym. destruct (Ascii.eqb c "_") eqn:E; cbn [andb app length Nat.sub]; [f_equal; exact IH|f_equal; exact IH].
Qed.
Lemma spaced_app a b : spaced (a ++ b) = spaced a ++ spaced b. Proof. apply map_app. Qed.
Lemma spaced_plain u : ~ In "_"%char u -> spaced u = u.
Proof. intros N. unfold spaced. rewrite <- (map_id u) at 2. apply map_ext_in. intros c I. destruct (Ascii.eqb_spec c "_") as [->|]; [contradiction|reflexivity]. Qed.
Lemma new_name_of o v b u d t : bound_of o = b -> boundary_words b u d -> o = v ++ "_"%char :: b ++ t -> ~ mentions ("_"%char :: b) v -> new_name o = u ++ " "%char :: spaced v.
Proof.
  intros B W E M. destruct (words_facts b u d W) as (U & _ & N & Nu & _ & NE). unfold new_name. rewrite B, U. rewrite E at 1. rewrite before_first by assumption.
  destruct (length b =? 0)%nat eqn:L; [apply Nat.eqb_eq in L; destruct b; [contradiction|discriminate]|]. rewrite replace_spaced, !spaced_app, (spaced_plain u Nu). rewrite <- app_assoc. reflexivity.
Qed.
(** ** One output *)
Section Add.
Variables (fresh : mentry) (columns : list label).
Lemma add_kept m o p notes v e : lookup o m = Some e -> add_meta fresh columns m o p false notes v = Ok m.
Proof. intros H. unfold add_meta. rewrite H. reflexivity. Qed.
Lemma set_entry_same m o new : exists e, lookup o (set_entry fresh m o new) = Some e /\ forall l x, given new l = Some x -> e l = x.
Proof. unfold set_entry. rewrite lookup_setkey, str_eqb_refl. eexists. split; [reflexivity|]. intros l x H. cbn. rewrite H. reflexivity. Qed.
Lemma set_entry_other m o new x : x <> o -> lookup x (set_entry fresh m o new) = lookup x m.
Proof. intros N. unfold set_entry. rewrite lookup_setkey, str_eqb_ne by exact N. reflexivity. Qed.
Lemma add_guard ow o (m : meta) : (ow = true \/ lookup o m = None) -> (negb ow && match lookup o m with Some _ => true | None => false end)%bool = false.
Proof. intros [-> | ->]; [reflexivity|apply andb_false_r]. Qed.
(** What any new entry has. *)
Lemma add_new m o p ow notes v m' : add_meta fresh columns m o p ow notes v = Ok m' -> (ow = true \/ lookup o m = None) ->
  (exists e, lookup o m' = Some e /\ e LNotes = VText notes /\ e LFill = VNan) /\ forall x, x <> o -> lookup x m' = lookup x m.
Proof.
  unfold add_meta. intros E C.
  assert (G : (negb ow && match lookup o m with Some _ => true | None => false end)%bool = false) by (destruct C as [-> | ->]; [reflexivity|apply andb_false_r]).
  rewrite G in E.
  assert (X : exists new, given new LFill = Some VNan /\ m' = set_entry fresh m o ((LNotes, VText notes) :: new)).
  { destruct (lookup p m) as [e|].
    - destruct v.
      + destruct (joined_text _ (e LDesc)); cbn [bind] in E; [|discriminate]. injection E as <-. eexists. split; [|reflexivity]. reflexivity.
      + destruct (joined_text _ (e LName)); cbn [bind] in E; [|discriminate]. destruct (joined_text _ (e LDesc)); cbn [bind] in E; [|discriminate]. injection E as <-. eexists. split; [|reflexivity]. reflexivity.
    - cbn [bind] in E. injection E as <-. eexists. split; [|reflexivity]. reflexivity. }
  destruct X as (new & GF & ->). split; [|intros x N; apply set_entry_other; exact N].
  destruct (set_entry_same m o ((LNotes, VText notes) :: new)) as (e & L & H). exists e. split; [exact L|]. split; apply H; [reflexivity|exact GF].
Qed.
Lemma add_any m o p notes v m' : add_meta fresh columns m o p false notes v = Ok m' ->
  (forall x e, lookup x m = Some e -> lookup x m' = Some e) /\ (forall x, x <> o -> lookup x m' = lookup x m) /\ exists e, lookup o m' = Some e.
Proof.
  intros E. destruct (lookup o m) as [e|] eqn:L.
  - rewrite (add_kept m o p notes v e L) in E. injection E as <-. split; [auto|]. split; [reflexivity|]. exists e. exact L.
  - destruct (add_new m o p false notes v m' E (or_intror L)) as ((e & A & _) & B). split; [|split; [exact B|exists e; exact A]].
    intros x e' H. rewrite B; [exact H|]. intros ->. congruence.
Qed.
End Add.
(** ** All outputs *)
Section All.
Variables (fresh : mentry) (columns : list label) (b : str) (s : source) (vecs : list (str * option str)) (comps : list (str * list str)).
Notation run := (meta_all fresh columns b s vecs comps).
Lemma all_any outs : forall m m', run outs m = Ok m' ->
  (forall x e, lookup x m = Some e -> lookup x m' = Some e) /\ (forall x, ~ In x outs -> lookup x m' = lookup x m) /\ (forall o, In o outs -> exists e, lookup o m' = Some e).
Proof.
  induction outs as [|o outs IH]; intros m m' E; cbn [meta_all] in E.
  - injection E as <-. split; [auto|]. split; [reflexivity|intros o []].
  - destruct (about_output b s vecs comps o) as [[[p notes] v]|]; cbn [bind] in E; [|discriminate]. destruct (add_meta fresh columns m o p false notes v) as [m1|] eqn:A; cbn [bind] in E; [|discriminate].
    destruct (add_any fresh columns m o p notes v m1 A) as (A1 & A2 & e & A3). destruct (IH m1 m' E) as (B1 & B2 & B3). split; [intros x y H; apply B1, A1, H|]. split.
    + intros x N. rewrite B2 by (intros I; apply N; right; exact I). apply A2. intros ->. apply N. left. reflexivity.
    + intros x [<-|I]; [exists e; apply B1, A3|apply B3, I].
Qed.
(** The call of [add_ocb_to_metadata] for one of the outputs. *)
Lemma all_one outs : forall m m' o, run outs m = Ok m' -> NoDup outs -> In o outs ->
  exists p notes v m1 m2, about_output b s vecs comps o = Ok (p, notes, v) /\ add_meta fresh columns m1 o p false notes v = Ok m2 /\
    (forall x e, lookup x m = Some e -> lookup x m1 = Some e) /\ lookup o m1 = lookup o m /\ lookup o m2 = lookup o m' /\ (forall x, ~ In x outs -> lookup x m1 = lookup x m).
Proof.
  induction outs as [|q outs IH]; intros m m' o E N I; [destruct I|]. cbn [meta_all] in E. inversion N as [|? ? NI N']; subst.
  destruct (about_output b s vecs comps q) as [[[p notes] v]|] eqn:AO; cbn [bind] in E; [|discriminate]. destruct (add_meta fresh columns m q p false notes v) as [m1|] eqn:A; cbn [bind] in E; [|discriminate].
  destruct I as [<-|I].
  - exists p, notes, v, m, m1. split; [exact AO|]. split; [exact A|]. split; [auto|]. split; [reflexivity|]. split; [|reflexivity]. symmetry. apply (all_any outs m1 m' E). exact NI.
  - destruct (IH m1 m' o E N' I) as (p' & n' & v' & m3 & m4 & X1 & X2 & X3 & X4 & X5 & X6). exists p', n', v', m3, m4. split; [exact X1|]. split; [exact X2|].
    destruct (add_any fresh columns m q p notes v m1 A) as (A1 & A2 & _). split; [intros x y H; apply X3, A1, H|]. split; [rewrite X4; apply A2; intros ->; contradiction|]. split; [exact X5|].
    intros x NX. rewrite X6 by (intros J; apply NX; right; exact J). apply A2. intros ->. apply NX. left. reflexivity.
Qed.
End All.
