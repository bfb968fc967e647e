(** The pysat interface: C72 and C114-C117. *)
From Coq Require Import String Ascii ZArith QArith List Bool Sorted Permutation Lia.
From Verif Require Import PyBase TimeModel FilesModel FilesProofs SmagModel PysatModel PysatSpec PysatProofs PysatProofs3 PysatProofs4.
Import ListNotations.
Open Scope string_scope.
Open Scope list_scope.
Open Scope Z_scope.

(** ** C72: reshape, pad, mask and flatten *)
(** Well-formed arrays: one size per dimension, dimensions named once. *)
Definition wf_nd {V} (a : nd V) : Prop := NoDup (nd_dims a) /\ length (nd_shape a) = length (nd_dims a).
(** Data on the first [k] dimensions of the mask, in any order: the values at the selected
    positions in row-major order of the mask. *)
Theorem C72_leading_dimensions_partial {V} (nan : V) data mask k : wf_nd mask -> wf_nd data -> (k <= length (nd_dims mask))%nat ->
  Permutation (nd_dims data) (firstn k (nd_dims mask)) -> same_sizes (nd_dims mask) (nd_shape mask) (nd_dims data) (nd_shape data) -> nd_dims mask <> nd_dims data ->
  exists l vals, selection (nd_shape mask) (nd_at mask) l /\ flatten nan data mask = Ok vals /\
    Forall2 (fun ix v => exists jx, same_place (nd_dims mask) ix (nd_dims data) jx /\ v = nd_at data jx) l vals.
Proof. intros [NM LM] [ND LD] KL PD SS NE. apply (flatten_pad nan data mask k); assumption. Qed.
(** The same dimensions: only for a mask that selects a box. *)
Theorem C72_same_dimensions_partial {V} (nan : V) data mask : nd_dims mask = nd_dims data -> nd_shape mask = nd_shape data -> box (nd_shape mask) (nd_at mask) ->
  exists l, selection (nd_shape mask) (nd_at mask) l /\ flatten nan data mask = Ok (map (nd_at data) l).
Proof. apply flatten_same. Qed.
Theorem C72_different_shapes {V} (nan : V) data mask : nd_dims mask = nd_dims data -> nd_shape mask <> nd_shape data -> flatten nan data mask = Err ValueError.
Proof.
  intros D S. unfold flatten. rewrite (proj2 (strs_eqb _ _) D). destruct (list_eqb Nat.eqb (nd_shape mask) (nd_shape data)) eqn:E; [apply nats_eqb in E; contradiction|reflexivity].
Qed.
(** Data on the second of two dimensions: refused, unless the sizes happen to fit. *)
Theorem C72_second_dimension_refused {V} (nan : V) a b m n at_ sel : a <> b -> n <> m -> n <> 1%nat ->
  flatten nan (mkNd [b] [n] at_) (mkNd [a; b] [m; n] sel) = Err ValueError.
Proof.
  intros AB NM N1. unfold flatten. cbn [nd_dims nd_shape nd_at].
  destruct (list_eqb str_eqb [a; b] [b]) eqn:E; [apply strs_eqb in E; discriminate|].
  assert (F : filter (fun d => member d [b]) [a; b] = [b]).
  { cbn [filter member existsb]. rewrite (str_eqb_neq a b AB), str_eqb_refl. reflexivity. }
  rewrite F. assert (G : filter (fun d => negb (member d [b])) [b] = []) by (cbn [filter member existsb]; rewrite str_eqb_refl; reflexivity). rewrite G. cbn [app length].
  change (1 <? 2)%nat with true. cbv iota. cbn [map]. unfold nindex. cbn [index]. rewrite str_eqb_refl. cbn [nth fits].
  rewrite (proj2 (Nat.eqb_neq n m) NM), (proj2 (Nat.eqb_neq n 1) N1). reflexivity.
Qed.
Definition tl2 (t l : string) : list str := [s2l t; s2l l].
Definition at2 {V} (f : nat -> nat -> V) (ix : list nat) : V := f (nth 0 ix 0%nat) (nth 1 ix 0%nat).
(** Equal sizes: a 2 by 2 mask selecting row 0; data [10; 11] along the second dimension gives
    [10; 10] instead of [10; 11]. *)
Theorem C72_second_dimension_refuted : exists (data : nd Z) mask vals, wf_nd data /\ wf_nd mask /\ flatten 0 data mask = Ok vals /\
  same_sizes (nd_dims mask) (nd_shape mask) (nd_dims data) (nd_shape data) /\
  exists l, selection (nd_shape mask) (nd_at mask) l /\ exists ix v jx, In (ix, v) (combine l vals) /\ same_place (nd_dims mask) ix (nd_dims data) jx /\ v <> nd_at data jx.
Proof.
  exists (mkNd [s2l "lat"] [2%nat] (fun ix => 10 + Z.of_nat (nth 0 ix 0%nat))), (mkNd (tl2 "time" "lat") [2; 2]%nat (at2 (fun i _ => (i =? 0)%nat))), [10; 10].
  split; [split; [repeat constructor; intros []|reflexivity]|]. split; [split; [repeat constructor; [intros [E|[]]; discriminate|intros []]|reflexivity]|]. split; [vm_compute; reflexivity|]. split.
  - intros [|[|a]] [|[|[|b]]] d A B; cbn in A, B; try discriminate; try (destruct a; discriminate); try reflexivity. 
  - exists [[0; 0]; [0; 1]]%nat. split.
    + pose proof (select_indices [2; 2]%nat (at2 (fun i _ => (i =? 0)%nat))) as S. exact S.
    + exists [0; 1]%nat, 10, [1%nat]. split; [right; left; reflexivity|]. split; [|discriminate]. split; [reflexivity|].
      intros [|[|a]] [|[|[|b]]] d A B; cbn in A, B; try discriminate; try (destruct a; discriminate); first [congruence | reflexivity].
Qed.
(** A mask that is not a box adds positions that are not selected, without value. *)
Theorem C72_same_dimensions_refuted : exists (data : nd Z) mask vals l, nd_dims mask = nd_dims data /\ nd_shape mask = nd_shape data /\
  flatten (-1) data mask = Ok vals /\ selection (nd_shape mask) (nd_at mask) l /\ length vals <> length l.
Proof.
  exists (mkNd (tl2 "time" "lat") [2; 2]%nat (at2 (fun i j => 10 * Z.of_nat i + Z.of_nat j))), (mkNd (tl2 "time" "lat") [2; 2]%nat (at2 Nat.eqb)), [0; -1; -1; 11], [[0; 0]; [1; 1]]%nat.
  split; [reflexivity|]. split; [reflexivity|]. split; [vm_compute; reflexivity|]. split; [exact (select_indices [2; 2]%nat (at2 Nat.eqb))|discriminate].
Qed.
Example C72_case : flatten 0 (mkNd [s2l "time"] [3%nat] (fun ix => 10 + Z.of_nat (nth 0 ix 0%nat))) (mkNd (tl2 "time" "lat") [3; 2]%nat (at2 (fun i j => (i =? 1)%nat || (j =? 0)%nat))) = Ok [10; 11; 11; 12] /\
  flatten 0 (mkNd (tl2 "lat" "time") [2; 3]%nat (at2 (fun i j => 10 * Z.of_nat i + Z.of_nat j))) (mkNd (tl2 "time" "lat") [3; 2]%nat (at2 (fun i j => (i =? 1)%nat || (j =? 0)%nat))) = Ok [0; 1; 11; 2].
Proof. split; vm_compute; reflexivity. Qed.

(** ** C114: every vector is made from its own description *)
(** The description [own] completed by the defaults. *)
Definition completed {A} (d own i : list (str * A)) : Prop :=
  forall k, lookup k i = match lookup k own with Some a => Some a | None => lookup k d end.
Definition names_of {A} (own : list (str * A)) : list str := map fst own.
Theorem C114_own_description_partial {A} (d : list (str * A)) vecs : Forall (fun own => NoDup (names_of own)) vecs ->
  (forall m n own own', (m < n)%nat -> nth_error vecs m = Some own -> nth_error vecs n = Some own' -> incl (names_of own) (names_of own')) ->
  Forall2 (completed d) vecs (vector_inits d vecs).
Proof.
  intros N I. assert (G : forall e, (forall k, (forall own, In own vecs -> ~ In k (names_of own)) -> lookup k e = lookup k d) ->
    (forall k n own, nth_error vecs n = Some own -> ~ In k (names_of own) -> lookup k e = lookup k d) -> Forall2 (completed d) vecs (vector_inits e vecs)).
  { induction vecs as [|own vecs IH]; intros e He Hp; cbn [vector_inits]; constructor.
    - apply Forall_cons_iff in N. destruct N as [N0 N]. intros k. rewrite lookup_overlay by exact N0. destruct (lookup k own) as [a|] eqn:L; [reflexivity|].
      apply (Hp k 0%nat own eq_refl). intros J. clear -L J. unfold names_of in J. induction own as [|[k1 a1] own IH]; [destruct J|]. cbn [lookup map fst] in *. destruct (str_eqb k k1) eqn:E; [discriminate|].
      destruct J as [->|J]; [rewrite str_eqb_refl in E; discriminate|exact (IH L J)].
    - apply Forall_cons_iff in N. destruct N as [N0 N].
      assert (Q : forall k n own', nth_error vecs n = Some own' -> ~ In k (names_of own') -> lookup k (overlay own e) = lookup k d).
      { intros k n own' E J. rewrite lookup_overlay by exact N0. destruct (lookup k own) as [a|] eqn:L.
        - exfalso. apply J. apply (I 0%nat (S n) own own'); [lia|reflexivity|exact E|]. clear -L. unfold names_of. induction own as [|[k1 a1] own IH]; [discriminate|]. cbn [lookup map fst] in *. destruct (str_eqb k k1) eqn:E; [apply str_eqb_spec in E; left; congruence|right; exact (IH L)].
        - apply (Hp k (S n) own' E J). }
      destruct vecs as [|own' vecs]; [constructor|]. apply IH.
      + exact N.
      + intros m n o o' L A' B'. apply (I (S m) (S n)); [lia|exact A'|exact B'].
      + intros k H. apply (Q k 0%nat own' eq_refl). apply H. left. reflexivity.
      + exact Q. }
  apply G; reflexivity.
Qed.
(** A later vector without a vertical component gets that of an earlier one. *)
Theorem C114_inherited_refuted : exists (d : list (str * Z)) vecs, Forall (fun own => NoDup (names_of own)) vecs /\ ~ Forall2 (completed d) vecs (vector_inits d vecs).
Proof.
  exists [(s2l "vect_n", 0); (s2l "vect_z", 0)], [[(s2l "vect_n", 1); (s2l "vect_z", 2)]; [(s2l "vect_n", 3)]]. split.
  - repeat constructor; cbn; intros H; repeat destruct H as [H|H]; try discriminate; contradiction.
  - intros F. inversion F as [|? ? ? ? _ F']. inversion F' as [|? ? ? ? C _]. specialize (C (s2l "vect_z")). vm_compute in C. discriminate.
Qed.
Example C114_case : vector_inits [(s2l "vect_n", 0); (s2l "vect_z", 0)] [[(s2l "vect_n", 1)]; [(s2l "vect_n", 3); (s2l "vect_z", 2)]] =
  [[(s2l "vect_n", 1); (s2l "vect_z", 0)]; [(s2l "vect_n", 3); (s2l "vect_z", 2)]].
Proof. vm_compute. reflexivity. Qed.

(** ** C115: the scaling of vectors, and calling again with the same arguments *)
Definition distinct_names (evar curl : list str) (vecs : list (str * option scaling)) : Prop := NoDup evar /\ NoDup curl /\ NoDup (map fst vecs).
Theorem C115_scaling_chosen evar curl vecs vecs' evar' curl' : distinct_names evar curl vecs -> roles evar curl vecs = Ok (vecs', evar', curl') ->
  Forall2 (fun v v' => fst v' = fst v /\ (In (fst v) evar -> snd v' = Some SEvar) /\ (~ In (fst v) evar -> In (fst v) curl -> snd v' = Some SCurl) /\
                       (~ In (fst v) evar -> ~ In (fst v) curl -> snd v' = snd v /\ snd v <> None)) vecs vecs' /\
  (forall x, In x evar' <-> In x evar /\ ~ In x (map fst vecs)).
Proof.
  intros (NE & NC & NV) R. rewrite (roles_spec vecs evar curl NV NE NC) in R. destruct (forallb (described evar curl) vecs) eqn:D; [|discriminate]. injection R as <- <- <-. split.
  - rewrite forallb_forall in D. clear NV. induction vecs as [|[k s] r IH]; cbn [map]; constructor; [|apply IH; intros x I; apply D; right; exact I].
    specialize (D (k, s) (or_introl eq_refl)). unfold described in D. unfold role. cbn [fst snd] in *. split; [reflexivity|].
    destruct (member k evar) eqn:ME.
    + apply member_spec in ME. split; [reflexivity|]. split; intros H; contradiction.
    + assert (NM : ~ In k evar) by (intros J; apply member_spec in J; congruence). split; [contradiction|]. destruct (member k curl) eqn:MC.
      * apply member_spec in MC. split; [reflexivity|]. intros _ H. contradiction.
      * assert (NMC : ~ In k curl) by (intros J; apply member_spec in J; congruence). split; [contradiction|]. intros _ _. split; [reflexivity|]. cbn in D. destruct s; [discriminate|discriminate].
  - intros x. unfold left_evar. rewrite filter_In, negb_true_iff. split; intros [I M]; (split; [exact I|]).
    + intros J. apply member_spec in J. congruence.
    + destruct (member x (map fst vecs)) eqn:E; [apply member_spec in E; contradiction|reflexivity].
Qed.
Theorem C115_scaling_missing evar curl vecs : distinct_names evar curl vecs ->
  (roles evar curl vecs = Err ValueError <-> exists k, In (k, None) vecs /\ ~ In k evar /\ ~ In k curl).
Proof.
  intros (NE & NC & NV). rewrite (roles_spec vecs evar curl NV NE NC). destruct (forallb (described evar curl) vecs) eqn:D; split; try discriminate; try reflexivity.
  - intros (k & I & A & B). rewrite forallb_forall in D. specialize (D _ I). unfold described in D. cbn [fst snd] in D.
    apply orb_true_iff in D. destruct D as [D|D]; [|discriminate]. apply orb_true_iff in D. destruct D as [D|D]; apply member_spec in D; contradiction.
  - intros _. clear NV. induction vecs as [|[k s] r IH]; [discriminate|]. cbn [forallb] in D. apply andb_false_iff in D. destruct D as [D|D].
    + exists k. unfold described in D. cbn [fst snd] in D. apply orb_false_iff in D. destruct D as [D S]. apply orb_false_iff in D. destruct D as [A B]. destruct s; [discriminate|].
      split; [left; reflexivity|]. split; intros J; apply member_spec in J; congruence.
    + destruct (IH D) as (k' & I & H). exists k'. split; [right; exact I|exact H].
Qed.
Lemma role_idem evar curl vecs v : In v vecs -> forallb (described evar curl) vecs = true -> ~ (In (fst v) evar /\ In (fst v) curl) ->
  let evar' := left_evar (map fst vecs) evar in let curl' := left_curl (map fst vecs) evar curl in
  role evar' curl' (role evar curl v) = role evar curl v /\ described evar' curl' (role evar curl v) = true.
Proof.
  intros I D NB evar' curl'. rewrite forallb_forall in D. specialize (D v I). destruct v as [k s]. cbn [fst snd] in *.
  assert (Ik : In k (map fst vecs)) by (apply (in_map fst) in I; exact I).
  assert (ME : member k evar' = false).
  { destruct (member k evar') eqn:M; [|reflexivity]. apply member_spec in M. unfold evar', left_evar in M. apply filter_In in M. destruct M as [_ M]. apply member_spec in Ik. rewrite Ik in M. discriminate. }
  assert (MC : member k curl' = false).
  { destruct (member k curl') eqn:M; [|reflexivity]. apply member_spec in M. unfold curl', left_curl in M. apply filter_In in M. destruct M as [J M]. apply member_spec in Ik. rewrite Ik in M. cbn [andb negb] in M.
    apply negb_true_iff, negb_false_iff in M. apply member_spec in M. exfalso. apply NB. split; assumption. }
  unfold described in *. unfold role. cbn [fst snd] in *. rewrite ME, MC. split; [reflexivity|]. cbn [orb].
  destruct (member k evar); [reflexivity|]. destruct (member k curl); [reflexivity|]. exact D.
Qed.
(** The call changes the lists and descriptions it is given.  Used again, they lead to the same
    scaling, if no vector was in both lists. *)
Theorem C115_repeat_partial evar curl vecs vecs' evar' curl' : distinct_names evar curl vecs -> (forall k, In k (map fst vecs) -> ~ (In k evar /\ In k curl)) ->
  roles evar curl vecs = Ok (vecs', evar', curl') -> roles evar' curl' vecs' = Ok (vecs', evar', curl').
Proof.
  intros (NE & NC & NV) NB R. rewrite (roles_spec vecs evar curl NV NE NC) in R. destruct (forallb (described evar curl) vecs) eqn:D; [|discriminate]. injection R as <- <- <-.
  assert (MK : map fst (map (role evar curl) vecs) = map fst vecs) by (rewrite map_map; reflexivity).
  rewrite roles_spec; [|rewrite MK; exact NV|apply NoDup_filter; exact NE|apply NoDup_filter; exact NC]. rewrite MK.
  assert (H : forall v, In v vecs -> ~ (In (fst v) evar /\ In (fst v) curl)) by (intros v I; apply NB; apply in_map; exact I).
  assert (A : forallb (described (left_evar (map fst vecs) evar) (left_curl (map fst vecs) evar curl)) (map (role evar curl) vecs) = true).
  { apply forallb_forall. intros w J. apply in_map_iff in J. destruct J as (v & <- & J). apply role_idem; [exact J|exact D|exact (H v J)]. }
  assert (B : map (role (left_evar (map fst vecs) evar) (left_curl (map fst vecs) evar curl)) (map (role evar curl) vecs) = map (role evar curl) vecs).
  { rewrite map_map. apply map_ext_in. intros v J. apply role_idem; [exact J|exact D|exact (H v J)]. }
  rewrite A, B. f_equal. f_equal; [f_equal|].
  - unfold left_evar. rewrite filter_filter. apply filter_ext. intros x. destruct (member x (map fst vecs)); reflexivity.
  - unfold left_curl at 1. unfold left_curl at 2. apply filter_all. intros x J. apply filter_In in J. destruct J as [J M].
    destruct (member x (map fst vecs)) eqn:E; [|reflexivity]. cbn [andb negb] in *. apply negb_true_iff, negb_false_iff in M. exfalso. apply member_spec in M. apply member_spec in E. exact (NB x E (conj M J)).
Qed.
Theorem C115_repeat_refuted : exists evar curl vecs vecs' evar' curl' vecs'', distinct_names evar curl vecs /\ roles evar curl vecs = Ok (vecs', evar', curl') /\
  (exists e c, roles evar' curl' vecs' = Ok (vecs'', e, c)) /\ vecs'' <> vecs'.
Proof.
  exists [s2l "vel"], [s2l "vel"], [(s2l "vel", None)], [(s2l "vel", Some SEvar)], [], [s2l "vel"], [(s2l "vel", Some SCurl)].
  split; [repeat split; repeat constructor; intros []|]. split; [reflexivity|]. split; [exists [], []; reflexivity|discriminate].
Qed.
Theorem C115_lists_changed_refuted : exists evar vecs vecs' evar' curl', roles evar [] vecs = Ok (vecs', evar', curl') /\ (evar' <> evar /\ vecs' <> vecs).
Proof. exists [s2l "vel"], [(s2l "vel", None)], [(s2l "vel", Some SEvar)], [], []. split; [reflexivity|split; discriminate]. Qed.
Example C115_case : roles [s2l "pot"; s2l "vel"] [s2l "vort"] [(s2l "vel", None); (s2l "dat", Some (SOther 3))] =
  Ok ([(s2l "vel", Some SEvar); (s2l "dat", Some (SOther 3))], [s2l "pot"], [s2l "vort"]).
Proof. vm_compute. reflexivity. Qed.

(** ** C116: names of the vector output *)
(** The name a user expects for attribute [v] of vector [e]: the boundary takes the place of
    "ocb" in the attribute names that have it, and is put in front of the others; for the
    open-closed boundary it is not put in front. *)
Definition expected_names (k : bkind) : list str :=
  match k with
  | KOcb => map s2l ["_ocb_n"; "_ocb_e"; "_ocb_z"; "_ocb_mag"; "_unscaled_r"; "_scaled_r"]
  | KEab => map s2l ["_eab_n"; "_eab_e"; "_eab_z"; "_eab_mag"; "_eab_unscaled_r"; "_eab_scaled_r"]
  | KDual => map s2l ["_dualb_n"; "_dualb_e"; "_dualb_z"; "_dualb_mag"; "_dualb_unscaled_r"; "_dualb_scaled_r"]
  end.
(** The names made are the names assigned to, and are those expected. *)
Theorem C116_names_partial k e : ~ mentions (s2l "ocb") e ->
  map (made_name (bname k) e) vect_attrs = map (fun x => e ++ x) (expected_names k) /\
  map (used_name (bname k) e) vect_attrs = map (fun x => e ++ x) (expected_names k).
Proof.
  intros N. assert (U : forall v, used_name (bname k) e v = e ++ replace ("_"%char :: bname k ++ "_"%char :: v) (s2l "_ocb_") (s2l "_")) by (intros v; apply used_form; exact N).
  assert (M : forall v t, replace ("_"%char :: bname k ++ "_"%char :: v) (s2l "_ocb_") (s2l "_") = "_"%char :: t ->
     made_name (bname k) e v = if str_eqb (bname k) (s2l "ocb") then e ++ "_"%char :: t else e ++ replace ("_"%char :: t) (s2l "ocb") (bname k)) by (intros v; apply made_form; exact N).
  split.
  - destruct k; cbn [vect_attrs expected_names map]; (f_equal; [|f_equal; [|f_equal; [|f_equal; [|f_equal; [|f_equal]]]]]); (erewrite M; [|vm_compute; reflexivity]); reflexivity.
  - destruct k; unfold vect_attrs; cbn [map]; rewrite !U; reflexivity.
Qed.
Theorem C116_ocb_names e : map (made_name (bname KOcb) e) vect_attrs = map (used_name (bname KOcb) e) vect_attrs.
Proof. reflexivity. Qed.
(** Different vectors, or attributes, have different names. *)
Lemma suffix_free k x y : In x (expected_names k) -> In y (expected_names k) -> forall a b, a ++ x = b ++ y -> a = b /\ x = y.
Proof.
  intros I J a b E. apply (f_equal (@rev ascii)) in E. rewrite !rev_app_distr in E.
  assert (G : x = y -> a = b /\ x = y).
  { intros ->. split; [|reflexivity]. apply app_inv_head in E. rewrite <- (rev_involutive a), <- (rev_involutive b), E. reflexivity. }
  destruct k; cbn [expected_names map In] in I, J.
  all: repeat destruct I as [<-|I]; try destruct I; repeat destruct J as [<-|J]; try destruct J; try (apply G; reflexivity); cbn in E; discriminate E.
Qed.
Theorem C116_distinct_partial k e e' v v' : ~ mentions (s2l "ocb") e -> ~ mentions (s2l "ocb") e' -> In v vect_attrs -> In v' vect_attrs ->
  used_name (bname k) e v = used_name (bname k) e' v' -> e = e' /\ v = v'.
Proof.
  intros N N' I I' E. rewrite !used_form in E by assumption.
  assert (X : forall w, In w vect_attrs -> In (replace ("_"%char :: bname k ++ "_"%char :: w) (s2l "_ocb_") (s2l "_")) (expected_names k)).
  { intros w J. destruct k; cbn [vect_attrs map In] in J; repeat destruct J as [<-|J]; try destruct J; vm_compute; auto 10. }
  destruct (suffix_free k _ _ (X v I) (X v' I') _ _ E) as [-> R]. split; [reflexivity|].
  clear -I I' R. destruct k; cbn [vect_attrs map In] in I, I'.
  all: repeat destruct I as [<-|I]; try destruct I; repeat destruct I' as [<-|I']; try destruct I'; try reflexivity; vm_compute in R; discriminate R.
Qed.
(** With another boundary, a vector with "ocb" in its name is assigned to a name that was not
    made (KeyError); with the open-closed boundary, two vectors can share their names. *)
Theorem C116_missing_name_refuted : exists e v, In v vect_attrs /\ ~ In (used_name (bname KEab) e v) (map (made_name (bname KEab) e) vect_attrs).
Proof. exists (s2l "ocb_vel"), (s2l "ocb_n"). split; [left; reflexivity|]. vm_compute. intros H. repeat destruct H as [H|H]; try discriminate; exact H. Qed.
Theorem C116_shared_name_refuted : exists e e' v, e <> e' /\ In v vect_attrs /\ used_name (bname KOcb) e v = used_name (bname KOcb) e' v.
Proof. exists (s2l "vel"), (s2l "vel_ocb"), (s2l "ocb_n"). split; [discriminate|]. split; [left; reflexivity|]. vm_compute. reflexivity. Qed.
Example C116_case : used_name (bname KEab) (s2l "vel") (s2l "ocb_mag") = s2l "vel_eab_mag" /\ made_name (bname KDual) (s2l "vel_") (s2l "scaled_r") = s2l "vel__dualb_scaled_r".
Proof. split; vm_compute; reflexivity. Qed.

(** ** C117: latitudes and local times on different coordinates *)
Lemma nth_repeat_block {V W} (l : list V) (ts : list W) : forall i j, (i < length ts)%nat -> (j < length l)%nat ->
  nth_error (concat (map (fun _ => l) ts)) (i * length l + j) = nth_error l j.
Proof.
  induction ts as [|t ts IH]; intros i j Li Lj; [cbn in Li; lia|]. cbn [map concat]. destruct i as [|i].
  - cbn [Nat.mul Nat.add]. apply nth_error_app1. exact Lj.
  - rewrite nth_error_app2 by nia. replace (S i * length l + j - length l)%nat with (i * length l + j)%nat by nia. apply IH; [cbn [length] in Li; lia|exact Lj].
Qed.
Lemma nth_each_block {V W} (l : list W) (ts : list V) : forall i j, (i < length ts)%nat -> (j < length l)%nat ->
  nth_error (concat (map (fun t => map (fun _ => t) l) ts)) (i * length l + j) = nth_error ts i.
Proof.
  induction ts as [|t ts IH]; intros i j Li Lj; [cbn in Li; lia|]. cbn [map concat]. destruct i as [|i].
  - cbn [Nat.mul Nat.add nth_error]. rewrite nth_error_app1 by (rewrite map_length; exact Lj). rewrite nth_error_map. destruct (nth_error l j) eqn:E; [reflexivity|]. apply nth_error_None in E. lia.
  - rewrite nth_error_app2 by (rewrite map_length; nia). rewrite map_length. replace (S i * length l + j - length l)%nat with (i * length l + j)%nat by nia. cbn [nth_error]. apply IH; [cbn [length] in Li; lia|exact Lj].
Qed.
Lemma concat_length {V W} (f : W -> list V) n ts : (forall t, length (f t) = n) -> length (concat (map f ts)) = (length ts * n)%nat.
Proof. intros H. induction ts as [|t ts IH]; [reflexivity|]. cbn [map concat length]. rewrite app_length, H, IH. reflexivity. Qed.
Lemma size_app a b : size (a ++ b) = (size a * size b)%nat.
Proof. unfold size. induction a as [|x a IH]; cbn [app fold_right]; [lia|]. rewrite IH. lia. Qed.
(** No coordinate in common: every local time is combined with every latitude, the latitude
    changing fastest. *)
Theorem C117_combined_partial {V} lat_coords lt_coords (lat lt : list V) :
  (forall c, In c (map fst lat_coords) -> ~ In c (map fst lt_coords)) -> length lat = size (map snd lat_coords) -> length lt = size (map snd lt_coords) ->
  exists lat' lt', combine_locations lat_coords lt_coords lat lt = Ok (map snd lt_coords ++ map snd lat_coords, lat', lt') /\
    length lat' = size (map snd lt_coords ++ map snd lat_coords) /\ length lt' = size (map snd lt_coords ++ map snd lat_coords) /\
    forall i j, (i < length lt)%nat -> (j < length lat)%nat -> nth_error lat' (i * length lat + j) = nth_error lat j /\ nth_error lt' (i * length lat + j) = nth_error lt i.
Proof.
  intros D La Lt. unfold combine_locations. rewrite filter_all.
  2:{ intros c I. apply negb_true_iff. destruct (member (fst c) (map fst lt_coords)) eqn:M; [|reflexivity]. apply member_spec in M. exfalso. apply (D (fst c)); [apply in_map; exact I|exact M]. }
  destruct (list_eqb Nat.eqb (map snd lat_coords) _ && _) eqn:E.
  - apply andb_true_iff in E. destruct E as [E1 E2]. apply nats_eqb in E1, E2. apply (f_equal (@length nat)) in E1, E2. rewrite app_length in E1, E2.
    assert (Z1 : map snd lt_coords = []) by (apply length_zero_iff_nil; lia). assert (Z2 : map snd lat_coords = []) by (apply length_zero_iff_nil; lia). rewrite Z1, Z2 in *. cbn in La, Lt.
    exists lat, lt. split; [reflexivity|]. cbn [app size fold_right]. split; [exact La|]. split; [exact Lt|]. intros i j Hi Hj. assert (i = 0%nat) by lia. assert (j = 0%nat) by lia. subst. split; reflexivity.
  - cbn [meshgrid]. unfold reshape. assert (L1 : length (concat (map (fun _ : V => lat) lt)) = (length lt * length lat)%nat) by (apply concat_length; reflexivity).
    assert (L2 : length (concat (map (fun t => map (fun _ : V => t) lat) lt)) = (length lt * length lat)%nat) by (apply concat_length; intros t; apply map_length).
    rewrite L1, L2, size_app, <- La, <- Lt, Nat.eqb_refl. cbn [bind]. eexists _, _. split; [reflexivity|]. split; [exact L1|]. split; [exact L2|].
    intros i j Hi Hj. split; [apply nth_repeat_block; assumption|apply nth_each_block; assumption].
Qed.
Theorem C117_unchanged {V} coords (lat lt : list V) : combine_locations coords coords lat lt = Ok (map snd coords, lat, lt).
Proof.
  unfold combine_locations. rewrite filter_none.
  - cbn [map]. rewrite app_nil_r, (proj2 (nats_eqb _ _) eq_refl). reflexivity.
  - intros c I. apply negb_false_iff, member_spec, in_map, I.
Qed.
Lemma partition_size (p : str * nat -> bool) l : size (map snd l) = (size (map snd (filter p l)) * size (map snd (filter (fun c => negb (p c)) l)))%nat.
Proof. unfold size. induction l as [|c l IH]; [reflexivity|]. cbn [filter map fold_right]. destruct (p c); cbn [negb map fold_right]; rewrite IH; lia. Qed.
(** A coordinate in common, of more than one value, when the latitudes have others: refused. *)
Theorem C117_common_coordinate_refuted {V} lat_coords lt_coords (lat lt : list V) :
  length lat = size (map snd lat_coords) -> length lt = size (map snd lt_coords) -> (0 < size (map snd lt_coords))%nat -> (0 < size (map snd lat_coords))%nat ->
  (exists c, In c lat_coords /\ In (fst c) (map fst lt_coords) /\ (1 < snd c)%nat) -> map snd lat_coords <> map snd lt_coords ->
  combine_locations lat_coords lt_coords lat lt = Err ValueError.
Proof.
  intros La Lt P1 P2 (c & Ic & It & C1) NE. unfold combine_locations.
  match goal with |- (if ?x && ?y then _ else _) = _ => destruct (x && y) eqn:E end.
  - exfalso. apply andb_true_iff in E. destruct E as [E1 E2]. apply nats_eqb in E1, E2. apply NE. congruence.
  - cbn [meshgrid]. unfold reshape at 1. rewrite (concat_length (fun _ : V => lat) (length lat)) by reflexivity. rewrite size_app.
    pose proof (partition_size (fun c => member (fst c) (map fst lt_coords)) lat_coords) as PS. cbv beta in PS.
    assert (PC : (1 < size (map snd (filter (fun c => member (fst c) (map fst lt_coords)) lat_coords)))%nat).
    { assert (P3 : (0 < size (map snd (filter (fun c => member (fst c) (map fst lt_coords)) lat_coords)))%nat) by (rewrite PS in P2; nia).
      assert (J : In c (filter (fun c => member (fst c) (map fst lt_coords)) lat_coords)) by (apply filter_In; split; [exact Ic|apply member_spec; exact It]).
      clear -P3 J C1. induction (filter (fun c => member (fst c) (map fst lt_coords)) lat_coords) as [|x l IH]; [destruct J|]. unfold size in *. cbn [map fold_right] in *. apply Nat.lt_0_mul' in P3. destruct P3 as [P3 P4].
      assert (LM : forall a b, (1 < a -> 0 < b -> 1 < a * b)%nat) by (intros a b A B; destruct b as [|b]; [lia|]; rewrite Nat.mul_succ_r; lia).
      destruct J as [->|J]; [apply LM; assumption|]. rewrite Nat.mul_comm. apply LM; [apply IH; assumption|exact P3]. }
    rewrite (proj2 (Nat.eqb_neq _ _)); [reflexivity|]. rewrite La, Lt. rewrite PS. rewrite PS in P2. nia.
Qed.
Example C117_case : combine_locations [(s2l "lat", 2%nat)] [(s2l "time", 3%nat)] [60; 70] [0; 6; 12] = Ok ([3; 2]%nat, [60; 70; 60; 70; 60; 70], [0; 0; 6; 6; 12; 12]) /\
  combine_locations [(s2l "time", 2%nat); (s2l "beam", 2%nat)] [(s2l "time", 2%nat)] [60; 61; 70; 71] [0; 6] = Err ValueError.
Proof. split; vm_compute; reflexivity. Qed.

Print Assumptions C72_leading_dimensions_partial.
Print Assumptions C72_same_dimensions_partial.
Print Assumptions C72_different_shapes.
Print Assumptions C72_second_dimension_refused.
Print Assumptions C72_second_dimension_refuted.
Print Assumptions C72_same_dimensions_refuted.
Print Assumptions C114_own_description_partial.
Print Assumptions C114_inherited_refuted.
Print Assumptions C115_scaling_chosen.
Print Assumptions C115_scaling_missing.
Print Assumptions C115_repeat_partial.
Print Assumptions C115_repeat_refuted.
Print Assumptions C115_lists_changed_refuted.
Print Assumptions C116_names_partial.
Print Assumptions C116_ocb_names.
Print Assumptions C116_distinct_partial.
Print Assumptions C116_missing_name_refuted.
Print Assumptions C116_shared_name_refuted.
Print Assumptions C117_combined_partial.
Print Assumptions C117_unchanged.
Print Assumptions C117_common_coordinate_refuted.
