(** Lemmas for the assignments of VectorData. *)
From Coq Require Import Reals ZArith List Bool PeanoNat Lia Lra.
From Verif Require Import PyBase RangeModel CoordModel DualCoordModel VectorModel ScalingModel VdataModel VdataSpec.
Import ListNotations.
Open Scope R_scope.

Lemma shape_eqb_eq a b : shape_eqb a b = true <-> a = b.
Proof.
  revert b; induction a as [| x a IH]; destruct b as [| y b]; cbn; try (split; congruence).
  rewrite andb_true_iff, Nat.eqb_eq, IH. split; [intros [-> ->]; reflexivity | intros H; inversion H; auto].
Qed.
Lemma scalar_nil s : scalar s = true <-> s = [].
Proof. destruct s; cbn; split; congruence. Qed.
Lemma existsb_shape s l : existsb (shape_eqb s) l = true <-> In s l.
Proof.
  rewrite existsb_exists. split; [intros (x & I & E); apply shape_eqb_eq in E; subst; exact I | intros I; exists s; split; [exact I | apply shape_eqb_eq; reflexivity]].
Qed.
Lemma distinct_in l : forall seen s, In s (distinct seen l) <-> In s seen \/ In s l.
Proof.
  induction l as [| a l IH]; intros seen s; cbn [distinct In]; [tauto |].
  rewrite IH. destruct (existsb (shape_eqb a) seen) eqn:E.
  - apply existsb_shape in E. split; [tauto |]. intros [H | [-> | H]]; tauto.
  - rewrite in_app_iff. cbn [In]. tauto.
Qed.
Lemma distinct_nodup l : forall seen, NoDup seen -> NoDup (distinct seen l).
Proof.
  induction l as [| a l IH]; intros seen N; cbn [distinct]; [exact N |].
  apply IH. destruct (existsb (shape_eqb a) seen) eqn:E; [exact N |].
  assert (X : ~ In a seen) by (rewrite <- existsb_shape; congruence).
  clear -N X. induction seen as [| b seen IH]; cbn; [constructor; [intros [] | constructor] |].
  inversion N; subst. constructor; [rewrite in_app_iff; cbn; intros [H | [-> | []]]; [auto | apply X; left; reflexivity] |].
  apply IH; [assumption | intros H; apply X; right; exact H].
Qed.

(** The shapes of a list of values that pass the test: one shape, or scalars and one other. *)
Lemma shapes_pass l : l <> [] ->
  let vs := distinct [] l in
  ((2 <? List.length vs)%nat || ((List.length vs =? 2)%nat && negb (scalar (min_shape vs)))) = false ->
  ((1 <? List.length vs)%nat && scalar (min_shape vs) = false /\ forall s, In s l -> s = max_shape vs)
  \/ ((1 <? List.length vs)%nat && scalar (min_shape vs) = true /\ max_shape vs <> [] /\ In (max_shape vs) l /\ In [] l /\ forall s, In s l -> s = [] \/ s = max_shape vs).
Proof.
  intros N vs H. pose proof (distinct_in l []) as D. pose proof (distinct_nodup l [] (NoDup_nil _)) as ND. fold vs in D, ND.
  destruct vs as [| a [| b [| c r]]].
  - exfalso. destruct l as [| s l]; [congruence |]. assert (In s []) as [] by (apply D; right; left; reflexivity).
  - left. split; [reflexivity |]. intros s I. assert (In s [a]) as [-> | []] by (apply D; right; exact I). reflexivity.
  - cbn [List.length] in H. cbn in H.
    assert (M : scalar (if tuple_ltb b a then b else a) = true) by (destruct (scalar (if tuple_ltb b a then b else a)); [reflexivity | discriminate H]).
    assert (AB : a <> b) by (inversion ND; subst; intros ->; apply H2; left; reflexivity).
    right. split; [cbn; exact M |]. cbn [max_shape fold_left].
    assert (IA : In a l) by (destruct (proj1 (D a) (or_introl eq_refl)) as [[] | X]; exact X).
    assert (IB : In b l) by (destruct (proj1 (D b) (or_intror (or_introl eq_refl))) as [[] | X]; exact X).
    assert (A2 : forall s, In s l -> s = a \/ s = b).
    { intros s I. assert (In s [a; b]) as [-> | [-> | []]] by (apply D; right; exact I); auto. }
    destruct a as [| x a], b as [| y b]; cbn [tuple_ltb] in *; try congruence.
    + split; [congruence |]. split; [exact IB |]. split; [exact IA | exact A2].
    + split; [congruence |]. split; [exact IA |]. split; [exact IB |]. intros s I; destruct (A2 s I); auto.
    + destruct ((y <? x)%nat || ((y =? x)%nat && tuple_ltb b a)); discriminate M.
  - exfalso. cbn [List.length] in H. cbn in H. discriminate H.
Qed.

(** Values and shapes. *)
Lemma like_shape {A B} (x : av A) (y : av B) : like x y <-> shape_of x = shape_of y.
Proof. destruct x, y; cbn; split; try congruence; try tauto; intros H; inversion H; auto. Qed.
Lemma full_shape {A B} (x : av A) (b : B) : shape_of (full (shape_of x) b) = shape_of x.
Proof. destruct x; cbn; [reflexivity | rewrite repeat_length; reflexivity]. Qed.
Lemma full_at {A B} (x : av A) (b : B) i y : at_ (full (shape_of x) b) i = Some y -> y = b.
Proof.
  destruct x; cbn; [congruence |]. intros H. apply nth_error_In in H. apply repeat_spec in H. exact H.
Qed.
Lemma full_place (ind : av Z) {B} (b : B) i : place ind i -> at_ (full (shape_of ind) b) i = Some b.
Proof.
  destruct ind as [z | l]; cbn; [reflexivity |]. intros H.
  destruct (nth_error (repeat b (List.length l)) i) eqn:E.
  - apply nth_error_In in E. apply repeat_spec in E. congruence.
  - apply nth_error_None in E. rewrite repeat_length in E. lia.
Qed.
Lemma sized_at {A} (ind : av Z) (x : av A) i : place ind i -> at_ (sized ind x) i = at_ x i.
Proof. intros P. destruct x as [a | l]; [cbn [sized at_]; apply full_place, P | reflexivity]. Qed.
Lemma like_sym {A B} (x : av A) (y : av B) : like x y -> like y x.
Proof. rewrite !like_shape. congruence. Qed.
Lemma like_trans {A B C} (x : av A) (y : av B) (z : av C) : like x y -> like y z -> like x z.
Proof. rewrite !like_shape. congruence. Qed.
Lemma place_like (x y : av Z) i : like x y -> place x i <-> place y i.
Proof. destruct x, y; cbn; try tauto. intros ->. tauto. Qed.
Lemma is_scalar_true {A} (x : av A) : is_scalar x = true <-> exists a, x = Sc a.
Proof. destruct x; cbn; split; try congruence; [eauto | intros (b & X); congruence]. Qed.
Lemma is_scalar_false {A} (x : av A) : is_scalar x = false <-> exists l, x = Ar l.
Proof. destruct x; cbn; split; try congruence; [intros (b & X); congruence | eauto]. Qed.
Lemma grow_at (ind : av Z) x i : place ind i -> at_ (grow (shape_of ind) x) i = at_ x i.
Proof. exact (sized_at ind x i). Qed.
Lemma grow_like (ind : av Z) x : shape_of x = [] \/ shape_of x = shape_of ind -> like (grow (shape_of ind) x) ind.
Proof.
  intros H. apply like_shape. destruct x as [a | l]; cbn [grow]; [apply full_shape |].
  destruct H as [H | H]; [discriminate H | exact H].
Qed.

(** [test_vector] when it passes. *)
Definition same_given (v v' : vdata) : Prop :=
  o_ind v' = o_ind v /\ d_lat v' = d_lat v /\ d_lt v' = d_lt v /\ d_h v' = d_h v /\ d_mag v' = d_mag v /\
  o_lat v' = o_lat v /\ o_mlt v' = o_mlt v /\ o_rc v' = o_rc v /\ d_out v' = d_out v.
Lemma same_given_refl v : same_given v v. Proof. repeat split. Qed.

Lemma test_vector_ok v v' : test_vector v = (v', None) ->
  d_ind v' = d_ind v /\ same_given v v' /\ d_vs v' = shape_of (d_ind v) /\
  like (d_n v') (d_ind v) /\ like (d_e v') (d_ind v) /\ like (d_z v') (d_ind v) /\
  (forall i, place (d_ind v) i -> at_ (d_n v') i = at_ (d_n v) i /\ at_ (d_e v') i = at_ (d_e v) i /\ at_ (d_z v') i = at_ (d_z v) i) /\
  (shape_of (d_lat v) = [] \/ shape_of (d_lat v) = shape_of (d_ind v)) /\ (shape_of (d_lt v) = [] \/ shape_of (d_lt v) = shape_of (d_ind v)) /\
  (shape_of (d_n v) = [] \/ shape_of (d_n v) = shape_of (d_ind v)) /\ (shape_of (d_e v) = [] \/ shape_of (d_e v) = shape_of (d_ind v)) /\
  (shape_of (d_z v) = [] \/ shape_of (d_z v) = shape_of (d_ind v)).
Proof.
  unfold test_vector. set (L := [shape_of (d_lat v); shape_of (d_lt v); shape_of (d_ind v); shape_of (d_n v); shape_of (d_e v); shape_of (d_z v)]).
  intros H. pose proof (shapes_pass L ltac:(discriminate)) as P. cbv zeta in P.
  destruct ((2 <? List.length (distinct [] L))%nat || ((List.length (distinct [] L) =? 2)%nat && negb (scalar (min_shape (distinct [] L))))) eqn:E; [discriminate H |].
  specialize (P eq_refl).
  assert (I1 : In (shape_of (d_lat v)) L) by (unfold L; cbn; tauto).
  assert (I2 : In (shape_of (d_lt v)) L) by (unfold L; cbn; tauto).
  assert (I3 : In (shape_of (d_ind v)) L) by (unfold L; cbn; tauto).
  assert (I4 : In (shape_of (d_n v)) L) by (unfold L; cbn; tauto).
  assert (I5 : In (shape_of (d_e v)) L) by (unfold L; cbn; tauto).
  assert (I6 : In (shape_of (d_z v)) L) by (unfold L; cbn; tauto).
  destruct P as [[C A] | (C & M & _ & _ & A)]; rewrite C in H.
  - assert (V : v' = with_vs v (max_shape (distinct [] L))) by congruence. subst v'; clear H. cbn [with_vs d_ind d_n d_e d_z d_vs].
    pose proof (A _ I1). pose proof (A _ I2). pose proof (A _ I3). pose proof (A _ I4). pose proof (A _ I5). pose proof (A _ I6).
    split; [reflexivity |]. split; [repeat split |]. split; [congruence |].
    repeat split; try (apply like_shape; congruence); try (right; congruence).
  - destruct (is_scalar (d_ind v)) eqn:SI; [discriminate H |]. cbn [with_vs d_vs] in H.
    assert (V : v' = with_nez (with_vs v (max_shape (distinct [] L))) (grow (max_shape (distinct [] L)) (d_n v)) (grow (max_shape (distinct [] L)) (d_e v)) (grow (max_shape (distinct [] L)) (d_z v))) by congruence.
    subst v'; clear H.
    assert (SD : max_shape (distinct [] L) = shape_of (d_ind v)).
    { destruct (A _ I3) as [X | X]; [| congruence]. unfold is_scalar in SI. rewrite X in SI. discriminate SI. }
    rewrite SD in *. cbn [with_vs with_nez d_ind d_n d_e d_z d_vs].
    split; [reflexivity |]. split; [repeat split |]. split; [reflexivity |].
    split; [apply grow_like, A, I4 |]. split; [apply grow_like, A, I5 |]. split; [apply grow_like, A, I6 |].
    split; [intros i Pl; repeat split; apply grow_at, Pl |].
    repeat split; apply A; assumption.
Qed.

Lemma test_vector_err v v' e : test_vector v = (v', Some e) -> e = ValueError /\ v' = with_vs v (d_vs v').
Proof.
  unfold test_vector. set (L := distinct [] _).
  destruct (_ || _); [intros H; inversion H; subst; split; reflexivity |].
  destruct (_ && _); [| intros H; discriminate H].
  destruct (is_scalar (d_ind v)); intros H; inversion H; subst; split; reflexivity.
Qed.

(** [test_bound] when it passes. *)
Lemma test_bound_ok v v' : test_bound v = Passed v' ->
  v' = with_vs v (d_vs v') /\
  (d_vs v' = d_vs v \/ is_scalar (d_ind v) = true /\ is_scalar (o_ind v) = false /\ d_vs v' = shape_of (o_ind v)) /\
  (is_scalar (d_ind v) = true -> is_scalar (o_ind v) = false -> d_vs v' = shape_of (o_ind v)) /\
  (is_scalar (o_ind v) = false -> is_scalar (d_ind v) = false -> d_vs v = shape_of (o_ind v)) /\
  (is_scalar (o_ind v) = false -> forall s, In s [shape_of (o_lat v); shape_of (o_mlt v); shape_of (o_rc v)] -> s = [] \/ s = shape_of (o_ind v)).
Proof.
  unfold test_bound. set (L := [shape_of (o_lat v); shape_of (o_mlt v); shape_of (o_rc v)]).
  pose proof (shapes_pass L ltac:(discriminate)) as P. cbv zeta in P.
  set (os := distinct [] L) in *.
  rewrite <- orb_assoc.
  destruct ((2 <? List.length os)%nat || ((List.length os =? 2)%nat && negb (scalar (min_shape os)))) eqn:E;
    [rewrite orb_true_r; discriminate |]. specialize (P eq_refl). rewrite orb_false_r.
  destruct (is_scalar (o_ind v)) eqn:SO; cbn [negb andb].
  - intros H; inversion H; subst v'. split; [destruct v; reflexivity |]. repeat split; auto; try discriminate.
  - destruct (scalar (max_shape os)) eqn:SM; cbn [orb]; [discriminate |].
    destruct (shape_eqb (max_shape os) (shape_of (o_ind v))) eqn:SE; cbn [negb]; [| discriminate].
    apply shape_eqb_eq in SE.
    assert (A : forall s, In s L -> s = [] \/ s = shape_of (o_ind v)).
    { destruct P as [[_ A] | (_ & _ & _ & _ & A)]; intros s I; specialize (A s I); rewrite SE in A; auto. }
    destruct (is_scalar (d_ind v)) eqn:SD.
    + intros H; inversion H; subst v'. cbn [with_vs d_vs]. repeat split; auto; try discriminate.
    + destruct (shape_eqb (max_shape os) (d_vs v)) eqn:SV; [| discriminate].
      apply shape_eqb_eq in SV. intros H; inversion H; subst v'. split; [destruct v; reflexivity |].
      repeat split; auto; try discriminate. intros; congruence.
Qed.

(** Lengths. *)
Lemma lift2_at {A B C} (f : A -> B -> C) x y s : (shape_of x = [] \/ shape_of x = s) -> (shape_of y = [] \/ shape_of y = s) ->
  exists m, lift2 f x y = Ok m /\ (shape_of m = [] \/ shape_of m = s) /\
    (shape_of x = s -> shape_of y = s -> shape_of m = s) /\
    (shape_of x = s -> s <> [] -> shape_of m = s) /\
    forall i a b, at_ x i = Some a -> at_ y i = Some b -> at_ m i = Some (f a b).
Proof.
  destruct x as [a | l], y as [b | m]; cbn [shape_of lift2]; intros X Y.
  - eexists; split; [reflexivity |]. split; [left; reflexivity |]. split; [auto |]. split; [cbn; intros <-; congruence |]. cbn; intros; congruence.
  - destruct Y as [Y | Y]; [discriminate Y |]. eexists; split; [reflexivity |]. cbn [shape_of]. rewrite map_length.
    split; [auto |]. split; [auto |]. split; [auto |]. intros i u w U W. cbn [at_] in *. inversion U; subst. rewrite nth_error_map, W. reflexivity.
  - destruct X as [X | X]; [discriminate X |]. eexists; split; [reflexivity |]. cbn [shape_of]. rewrite map_length.
    split; [auto |]. split; [auto |]. split; [auto |]. intros i u w U W. cbn [at_] in *. inversion W; subst. rewrite nth_error_map, U. reflexivity.
  - destruct X as [X | X]; [discriminate X |]. destruct Y as [Y | Y]; [discriminate Y |].
    assert (L : List.length l = List.length m) by congruence. rewrite L, Nat.eqb_refl.
    eexists; split; [reflexivity |]. cbn [shape_of]. rewrite map_length, combine_length, L, Nat.min_id.
    split; [auto |]. split; [auto |]. split; [auto |]. intros i u w U W. cbn [at_] in *. rewrite nth_error_map.
    assert (N : nth_error (combine l m) i = Some (u, w)).
    { clear -U W. revert m i U W. induction l as [| p l IH]; destruct m as [| q m], i; cbn; try congruence. intros; apply IH; assumption. }
    rewrite N. reflexivity.
Qed.
Lemma root_length a b c : is_length (Some (sqrt (a ^ 2 + b ^ 2 + c ^ 2))) (Some a) (Some b) (Some c).
Proof.
  cbn. eexists; split; [reflexivity |]. split; [apply sqrt_pos |]. rewrite sqrt_sqrt; [cbn; ring |]. nra.
Qed.
Lemma lengths_at n e z s : (shape_of n = [] \/ shape_of n = s) -> (shape_of e = [] \/ shape_of e = s) -> (shape_of z = [] \/ shape_of z = s) ->
  exists m, lengths n e z = Ok m /\ (shape_of m = [] \/ shape_of m = s) /\
    (shape_of n = s -> shape_of e = s -> shape_of z = s -> shape_of m = s) /\
    forall i a b c, at_ n i = Some a -> at_ e i = Some b -> at_ z i = Some c -> exists x, at_ m i = Some x /\ is_length x a b c.
Proof.
  intros N E Z. unfold lengths.
  destruct (lift2_at (fun a b : fl => (a, b)) n e s N E) as (ne & -> & S1 & S2 & _ & A1). cbn.
  destruct (lift2_at (fun (p : fl * fl) (c : fl) => match fst p, snd p, c with Some a, Some b, Some d => Some (sqrt (a ^ 2 + b ^ 2 + d ^ 2)) | _, _, _ => None end) ne z s S1 Z) as (m & R & T1 & T2 & _ & A2).
  cbn in R. exists m. split; [exact R |]. split; [exact T1 |]. split; [auto |].
  intros i a b c Ha Hb Hc. eexists. split; [apply A2; [apply A1; eassumption | eassumption] |].
  cbn [fst snd]. destruct a as [a |], b as [b |], c as [c |]; try reflexivity. apply root_length.
Qed.
Lemma lift2_err {A B C} (f : A -> B -> C) x y err : lift2 f x y = Err err -> err = ValueError.
Proof. destruct x, y; cbn; try discriminate. destruct (_ =? _)%nat; [discriminate |]. destruct l as [| a [| b l]], l0 as [| c [| d l0]]; congruence. Qed.
Lemma lengths_err n e z err : lengths n e z = Err err -> err = ValueError.
Proof.
  unfold lengths. destruct (lift2 _ n e) eqn:E1; cbn; intros H; [eapply lift2_err; exact H |].
  inversion H; subst. eapply lift2_err; exact E1.
Qed.

(** Clearing. *)
Lemma cleared_none {A} (x : av A) : no_results (cleared (shape_of x)).
Proof. repeat split; intros i y H; eapply full_at; exact H. Qed.
Lemma cleared_like {A} (x : av A) : results_like (cleared (shape_of x)) x.
Proof. repeat split; apply like_shape, full_shape. Qed.

(** One accepted assignment of an index. *)
Lemma set_dat_ok x v v' : set_dat_ind x v = (v', None) ->
  d_ind v' = x /\ o_ind v' = o_ind v /\ d_lat v' = d_lat v /\ d_lt v' = d_lt v /\ d_h v' = d_h v /\
  o_lat v' = o_lat v /\ o_mlt v' = o_mlt v /\ o_rc v' = o_rc v /\
  like (d_n v') x /\ like (d_e v') x /\ like (d_z v') x /\ like (d_mag v') x /\
  (forall i a b c, at_ (d_n v') i = Some a -> at_ (d_e v') i = Some b -> at_ (d_z v') i = Some c -> exists m, at_ (d_mag v') i = Some m /\ is_length m a b c) /\
  (forall i, place x i -> at_ (d_n v') i = at_ (d_n v) i /\ at_ (d_e v') i = at_ (d_e v) i /\ at_ (d_z v') i = at_ (d_z v) i) /\
  (shape_of (d_n v) = [] \/ shape_of (d_n v) = shape_of x) /\ (shape_of (d_e v) = [] \/ shape_of (d_e v) = shape_of x) /\ (shape_of (d_z v) = [] \/ shape_of (d_z v) = shape_of x) /\
  d_out v' = cleared (d_vs v') /\
  d_vs v' = (if is_scalar x then shape_of (o_ind v) else shape_of x) /\
  (is_scalar x = false -> is_scalar (o_ind v) = false -> like (o_ind v) x).
Proof.
  unfold set_dat_ind. destruct (test_vector (with_dind v x)) as [v1 [e1 |]] eqn:T1; cbn [bindO fst snd]; [discriminate |].
  apply test_vector_ok in T1. unfold same_given in T1. cbn [with_dind d_ind o_ind d_lat d_lt d_h d_n d_e d_z d_mag o_lat o_mlt o_rc d_vs d_out] in T1.
  destruct T1 as (Hd & (Ho & Hla & Hlt & Hh & Hm & Hol & Hom & Hrc & Hout) & Hvs & Ln & Le & Lz & Hat & _ & _ & Sn & Se & Sz).
  destruct (test_bound v1) as [v2 | |] eqn:T2; cbn [raising bindO fst snd]; try discriminate.
  apply test_bound_ok in T2. destruct T2 as (W & Vs1 & Vs2 & Vs3 & _).
  unfold set_mag. cbn [clear_data with_out d_n d_e d_z].
  assert (N2 : d_n v2 = d_n v1 /\ d_e v2 = d_e v1 /\ d_z v2 = d_z v1) by (rewrite W; repeat split). destruct N2 as (-> & -> & ->).
  destruct (lengths_at (d_n v1) (d_e v1) (d_z v1) (shape_of x)) as (m & -> & _ & Sm & Am); try (right; apply like_shape; assumption).
  cbn [all_nan isnan]. intros R. inversion R; subst v'; clear R.
  assert (G2 : d_ind v2 = x /\ same_given v1 v2) by (rewrite W; cbn [with_vs d_ind]; split; [exact Hd | repeat split]).
  destruct G2 as (D2 & O2 & LA2 & LT2 & H2 & M2 & OL2 & OM2 & RC2 & OUT2).
  cbn [with_mag clear_data with_out d_ind o_ind d_lat d_lt d_h d_n d_e d_z d_mag o_lat o_mlt o_rc d_vs d_out].
  assert (N2 : d_n v2 = d_n v1 /\ d_e v2 = d_e v1 /\ d_z v2 = d_z v1) by (rewrite W; repeat split). destruct N2 as (-> & -> & ->).
  repeat match goal with |- _ /\ _ => split end; try congruence; auto.
  - apply like_shape. apply Sm; apply like_shape; assumption.
  - destruct (is_scalar x) eqn:SX.
    + destruct (is_scalar (o_ind v)) eqn:SO.
      * destruct Vs1 as [Vs1 | (_ & Q & _)]; [rewrite Vs1, Hvs | rewrite Ho in Q; congruence].
        apply scalar_nil in SX. apply scalar_nil in SO. unfold is_scalar in *. congruence.
      * rewrite Vs2; [congruence | congruence | congruence].
    + destruct Vs1 as [Vs1 | (Q & _)]; [congruence | rewrite Hd in Q; congruence].
  - intros SX SO. apply like_shape. rewrite Ho, Hd in Vs3. rewrite <- Vs3; congruence.
Qed.

(** Two values of the coordinates of the boundary: kept or unset. *)
Lemma unset_passes v : is_scalar (d_ind v) = true -> test_bound (with_vs (unset v) (shape_of (o_ind v))) = Passed (with_vs (unset v) (shape_of (o_ind v))).
Proof.
  intros SD. unfold test_bound. cbn [with_vs unset with_coords d_ind o_ind o_lat o_mlt o_rc d_vs].
  rewrite !full_shape.
  set (q := shape_of (o_ind v)) in *.
  assert (Q : forall k, shape_eqb k k = true) by (intros; apply shape_eqb_eq; reflexivity).
  cbn [distinct existsb app]. rewrite Q. cbn [orb app distinct existsb]. rewrite Q. cbn [orb List.length max_shape fold_left min_shape].
  rewrite Q, SD. cbn [negb]. rewrite orb_false_r. unfold is_scalar. fold q. destruct q; reflexivity.
Qed.
Lemma unset_bound v : is_scalar (d_ind v) = false ->
  test_bound (unset v) = if is_scalar (o_ind v) then Passed (unset v) else if shape_eqb (shape_of (o_ind v)) (d_vs v) then Passed (unset v) else VectorShapes.
Proof.
  intros SD. unfold test_bound. cbn [with_vs unset with_coords d_ind o_ind o_lat o_mlt o_rc d_vs].
  rewrite !full_shape.
  set (q := shape_of (o_ind v)) in *.
  assert (Q : forall k, shape_eqb k k = true) by (intros; apply shape_eqb_eq; reflexivity).
  cbn [distinct existsb app]. rewrite Q. cbn [orb app distinct existsb]. rewrite Q. cbn [orb List.length max_shape fold_left min_shape].
  rewrite Q, SD. cbn [negb]. rewrite orb_false_r. unfold is_scalar. fold q. destruct q; reflexivity.
Qed.

(** The assignment of the boundary index. *)
Lemma set_ocb_form x v : 
  (exists v1, test_bound (with_oind v x) = Passed v1 /\ set_ocb_ind x v = (clear_data v1, None)) \/
  (test_bound (with_oind v x) = VectorShapes /\ set_ocb_ind x v = (with_oind v x, Some ValueError)) \/
  (test_bound (with_oind v x) = InputShapes /\ is_scalar (d_ind v) = true /\ set_ocb_ind x v = (clear_data (with_vs (unset (with_oind v x)) (shape_of x)), None)) \/
  (test_bound (with_oind v x) = InputShapes /\ is_scalar (d_ind v) = false /\ (is_scalar x = true \/ shape_of x = d_vs v) /\
     set_ocb_ind x v = (clear_data (unset (with_oind v x)), None)) \/
  (test_bound (with_oind v x) = InputShapes /\ is_scalar (d_ind v) = false /\ is_scalar x = false /\ shape_of x <> d_vs v /\
     set_ocb_ind x v = (unset (with_oind v x), Some ValueError)).
Proof.
  unfold set_ocb_ind. destruct (test_bound (with_oind v x)) as [v1 | |] eqn:T.
  - left. exists v1. split; reflexivity.
  - right; right. destruct (is_scalar (d_ind v)) eqn:SD.
    + left. split; [reflexivity |]. split; [reflexivity |].
      change (shape_of x) with (shape_of (o_ind (with_oind v x))) at 1 2. rewrite unset_passes by exact SD. reflexivity.
    + right. rewrite unset_bound by exact SD. cbn [with_oind o_ind d_vs].
      destruct (is_scalar x) eqn:SX.
      * left. repeat split; auto.
      * destruct (shape_eqb (shape_of x) (d_vs v)) eqn:E; [left | right].
        -- apply shape_eqb_eq in E. repeat split; auto.
        -- repeat split; auto. intros C. apply shape_eqb_eq in C. congruence.
  - right; left. split; reflexivity.
Qed.

(** An accepted assignment of the boundary index. *)
Lemma set_ocb_ok x v v' : set_ocb_ind x v = (v', None) ->
  d_ind v' = d_ind v /\ o_ind v' = x /\ d_lat v' = d_lat v /\ d_lt v' = d_lt v /\ d_h v' = d_h v /\
  d_n v' = d_n v /\ d_e v' = d_e v /\ d_z v' = d_z v /\ d_mag v' = d_mag v /\
  ((o_lat v' = o_lat v /\ o_mlt v' = o_mlt v /\ o_rc v' = o_rc v) \/
   (let nan := full (shape_of x) (@None R) in o_lat v' = nan /\ o_mlt v' = nan /\ o_rc v' = nan)) /\
  d_out v' = cleared (d_vs v') /\
  (is_scalar (d_ind v) = false -> d_vs v' = d_vs v) /\
  (is_scalar (d_ind v) = true -> is_scalar x = false -> d_vs v' = shape_of x) /\
  (is_scalar (d_ind v) = false -> is_scalar x = false -> d_vs v = shape_of x) /\
  (is_scalar x = false -> forall s, In s [shape_of (o_lat v'); shape_of (o_mlt v'); shape_of (o_rc v')] -> s = [] \/ s = shape_of x).
Proof.
  destruct (set_ocb_form x v) as [(v1 & T & ->) | [(T & ->) | [(T & SD & ->) | [(T & SD & C & ->) | (T & SD & SX & C & ->)]]]];
    intros H; try discriminate H; inversion H; subst v'; clear H.
  - apply test_bound_ok in T. destruct T as (W & V1 & V2 & V3 & V4).
    cbn [with_oind d_ind o_ind d_vs o_lat o_mlt o_rc] in V1, V2, V3, V4. rewrite W.
    cbn [clear_data with_out with_vs with_oind d_ind o_ind d_lat d_lt d_h d_n d_e d_z d_mag o_lat o_mlt o_rc d_vs d_out].
    repeat match goal with |- _ /\ _ => split end; auto.
    intros SD. destruct V1 as [V1 | (Q & _)]; [exact V1 | congruence].
  - cbn [clear_data with_out with_vs unset with_coords with_oind d_ind o_ind d_lat d_lt d_h d_n d_e d_z d_mag o_lat o_mlt o_rc d_vs d_out].
    repeat match goal with |- _ /\ _ => split end; auto; try congruence.
    intros _ s I. rewrite !full_shape in I. cbn in I. right. destruct I as [<- | [<- | [<- | []]]]; reflexivity.
  - cbn [clear_data with_out with_vs unset with_coords with_oind d_ind o_ind d_lat d_lt d_h d_n d_e d_z d_mag o_lat o_mlt o_rc d_vs d_out].
    repeat match goal with |- _ /\ _ => split end; auto; try congruence.
    + intros _ SX. destruct C as [C | C]; congruence.
    + intros _ s I. rewrite !full_shape in I. cbn in I. right. destruct I as [<- | [<- | [<- | []]]]; reflexivity.
Qed.

(** The constructor. *)
Lemma construct_ok dat ocb lat lt h n e z mag olat omlt rc v : construct dat ocb lat lt h n e z mag olat omlt rc = Ok v ->
  d_ind v = dat /\ o_ind v = ocb /\ d_lat v = sized dat lat /\ d_lt v = sized dat lt /\ d_h v = sized dat h /\
  o_lat v = sized ocb olat /\ o_mlt v = sized ocb omlt /\ o_rc v = sized ocb rc /\
  like (d_n v) dat /\ like (d_e v) dat /\ like (d_z v) dat /\ like (d_lat v) dat /\ like (d_lt v) dat /\
  (forall i, place dat i -> at_ (d_n v) i = at_ n i /\ at_ (d_e v) i = at_ e i /\ at_ (d_z v) i = at_ z i) /\
  (if all_nan mag then lengths n e z = Ok (d_mag v) else d_mag v = mag) /\
  (shape_of n = [] \/ shape_of n = shape_of dat) /\ (shape_of e = [] \/ shape_of e = shape_of dat) /\ (shape_of z = [] \/ shape_of z = shape_of dat) /\
  d_out v = cleared (d_vs v) /\
  d_vs v = (if is_scalar dat then shape_of ocb else shape_of dat) /\
  (is_scalar dat = false -> is_scalar ocb = false -> like ocb dat) /\
  (is_scalar ocb = false -> like (o_lat v) ocb /\ like (o_mlt v) ocb /\ like (o_rc v) ocb).
Proof.
  unfold construct.
  set (v0 := mkVd dat ocb (sized dat lat) (sized dat lt) (sized dat h) n e z (full [] None) (full [] None) (full [] None) (full [] None) [] (cleared [])).
  destruct (set_mag mag v0) as [vm [em |]] eqn:SM; cbn [bindO fst snd]; [discriminate |].
  assert (VM : exists m, vm = with_mag v0 m /\ (if all_nan mag then lengths n e z = Ok m else m = mag)).
  { unfold set_mag in SM. cbn [v0 d_n d_e d_z] in SM. destruct (lengths n e z) as [s | err]; [| discriminate SM].
    destruct (all_nan mag); [exists s; split; [congruence | reflexivity] |].
    destruct (lift2 _ mag s); [exists mag; split; [congruence | reflexivity] | discriminate SM]. }
  destruct VM as (m & -> & MG). clear SM.
  destruct (test_vector (with_mag v0 m)) as [v1 [e1 |]] eqn:T1; [discriminate |].
  apply test_vector_ok in T1. unfold same_given in T1. cbn [v0 with_mag d_ind o_ind d_lat d_lt d_h d_n d_e d_z d_mag o_lat o_mlt o_rc d_vs d_out] in T1.
  destruct T1 as (Hd & (Ho & Hla & Hlt & Hh & Hm & _) & Hvs & Ln & Le & Lz & Hat & Sla & Slt & Sn & Se & Sz).
  set (v2 := with_coords v1 (sized ocb olat) (sized ocb omlt) (sized ocb rc)).
  destruct (test_bound v2) as [v3 | |] eqn:T2; cbn [raising]; try discriminate.
  apply test_bound_ok in T2. destruct T2 as (W & V1 & V2 & V3 & V4).
  cbn [v2 with_coords d_ind o_ind d_vs o_lat o_mlt o_rc] in V1, V2, V3, V4.
  intros R. inversion R; subst v; clear R.
  cbn [clear_data with_out d_ind o_ind d_lat d_lt d_h d_n d_e d_z d_mag o_lat o_mlt o_rc d_vs d_out].
  assert (F : d_ind v3 = dat /\ o_ind v3 = ocb /\ d_lat v3 = sized dat lat /\ d_lt v3 = sized dat lt /\ d_h v3 = sized dat h /\
              o_lat v3 = sized ocb olat /\ o_mlt v3 = sized ocb omlt /\ o_rc v3 = sized ocb rc /\ d_n v3 = d_n v1 /\ d_e v3 = d_e v1 /\ d_z v3 = d_z v1 /\ d_mag v3 = m).
  { rewrite W. cbn [v2 with_vs with_coords d_ind o_ind d_lat d_lt d_h d_n d_e d_z d_mag o_lat o_mlt o_rc]. repeat split; assumption. }
  destruct F as (-> & -> & -> & -> & -> & -> & -> & -> & -> & -> & -> & ->).
  rewrite Hd, Ho in *.
  assert (SZ : forall x : av fl, (shape_of (sized dat x) = [] \/ shape_of (sized dat x) = shape_of dat) -> like (sized dat x) dat).
  { intros x [E | E]; apply like_shape; [| exact E]. destruct x as [q | q]; [apply full_shape | discriminate E]. }
  assert (SO : forall x : av fl, is_scalar ocb = false -> (shape_of (sized ocb x) = [] \/ shape_of (sized ocb x) = shape_of ocb) -> like (sized ocb x) ocb).
  { intros x _ [E | E]; apply like_shape; [| exact E]. destruct x as [q | q]; [apply full_shape | discriminate E]. }
  repeat match goal with |- _ /\ _ => split end; auto.
  - destruct (is_scalar dat) eqn:SX.
    + destruct (is_scalar ocb) eqn:SY.
      * destruct V1 as [V1 | (_ & Q & _)]; [| congruence]. rewrite V1, Hvs.
        apply scalar_nil in SX. apply scalar_nil in SY. congruence.
      * apply V2; reflexivity.
    + destruct V1 as [V1 | (Q & _)]; congruence.
  - intros SX SY. apply like_shape. rewrite <- V3 by assumption. exact Hvs.
  - intros SY. repeat split; apply SO; auto; apply V4; auto; cbn; tauto.
Qed.

(** Histories of index assignments. *)
Definition settled (v : vdata) : Prop := like (d_n v) (d_ind v) /\ like (d_e v) (d_ind v) /\ like (d_z v) (d_ind v).
Definition kept (v v' : vdata) : Prop :=
  d_lat v' = d_lat v /\ d_lt v' = d_lt v /\ d_h v' = d_h v /\
  (scalar_value (d_ind v') -> d_n v' = d_n v /\ d_e v' = d_e v /\ d_z v' = d_z v) /\
  (forall i, place (d_ind v') i -> at_ (d_n v') i = at_ (d_n v) i /\ at_ (d_e v') i = at_ (d_e v) i /\ at_ (d_z v') i = at_ (d_z v) i) /\
  (scalar_value (d_ind v) \/ like (d_ind v') (d_ind v)).
Lemma kept_refl v : kept v v.
Proof. repeat split; auto. right. apply like_shape; reflexivity. Qed.
Lemma kept_trans a b c : kept a b -> kept b c -> kept a c.
Proof.
  intros (P1 & P2 & P3 & P4 & P5 & P6) (Q1 & Q2 & Q3 & Q4 & Q5 & Q6).
  split; [congruence |]. split; [congruence |]. split; [congruence |].
  assert (SC : scalar_value (d_ind c) -> scalar_value (d_ind b)).
  { intros X. destruct Q6 as [Q6 | Q6]; [exact Q6 |]. destruct (d_ind c), (d_ind b); cbn in *; tauto. }
  split; [intros X; destruct (Q4 X) as (-> & -> & ->); apply P4, SC, X |].
  split.
  - intros i Pl. destruct (Q5 i Pl) as (-> & -> & ->).
    destruct Q6 as [Q6 | Q6]; [destruct (P4 Q6) as (-> & -> & ->); auto |]. apply P5. eapply place_like; [apply like_sym, Q6 | exact Pl].
  - destruct P6 as [P6 | P6]; [left; exact P6 |]. destruct Q6 as [Q6 | Q6].
    + left. destruct (d_ind b), (d_ind a); cbn in *; tauto.
    + right. eapply like_trans; eassumption.
Qed.
Lemma same_scalar (x : av fl) (y : av fl) : scalar_value x -> scalar_value y -> at_ x 0 = at_ y 0 -> x = y.
Proof. destruct x, y; cbn; try tauto. congruence. Qed.
Lemma like_scalar {A B} (x : av A) (y : av B) : like x y -> scalar_value y -> scalar_value x.
Proof. destruct x, y; cbn; tauto. Qed.

Lemma index_step a v v' : index_only a -> do_assign a v = (v', None) -> settled v -> settled v' /\ kept v v' /\ d_out v' = cleared (d_vs v').
Proof.
  destruct a as [x | x | | | | | | | | | |]; cbn [index_only do_assign]; try tauto; intros _ H (J1 & J2 & J3).
  - apply set_dat_ok in H. destruct H as (D & O & A1 & A2 & A3 & _ & _ & _ & L1 & L2 & L3 & _ & _ & Pl & S1 & S2 & S3 & Cl & _).
    unfold settled, kept. rewrite D. split; [auto |]. split; [| exact Cl].
    split; [assumption |]. split; [assumption |]. split; [assumption |]. split; [| split; [exact Pl |]].
    + intros X. assert (P0 : place x 0) by (destruct x; cbn in *; tauto). destruct (Pl 0%nat P0) as (E1 & E2 & E3).
      assert (G : forall q : av fl, shape_of q = [] \/ shape_of q = shape_of x -> scalar_value q).
      { intros q [E | E]; destruct q; cbn in *; try tauto; try discriminate E. destruct x; [discriminate E | tauto]. }
      repeat split; apply same_scalar; auto; eapply like_scalar; eauto.
    + destruct (d_ind v) as [z | l]; [left; exact I | right].
      apply like_shape. apply like_shape in J1. destruct S1 as [S1 | S1]; [| congruence]. rewrite S1 in J1. discriminate J1.
  - apply set_ocb_ok in H. destruct H as (D & O & A1 & A2 & A3 & N & E & Z & _ & _ & Cl & _).
    unfold settled, kept. rewrite D, N, E, Z, A1, A2, A3. split; [auto |]. split; [| exact Cl].
    repeat split; auto. right. apply like_shape; reflexivity.
Qed.
Lemma index_history h : forall v v', Forall index_only h -> run h v = Ok v' -> settled v ->
  settled v' /\ kept v v' /\ d_ind v' = last_dat h (d_ind v) /\ o_ind v' = last_ocb h (o_ind v) /\ (h <> [] \/ d_out v = cleared (d_vs v) -> d_out v' = cleared (d_vs v')).
Proof.
  induction h as [| a h IH]; intros v v' F R S; cbn [run] in R.
  - inversion R; subst. split; [exact S |]. split; [apply kept_refl |]. repeat split; auto. intros [X | X]; [congruence | exact X].
  - inversion F; subst. destruct (do_assign a v) as [v1 [e |]] eqn:E; [discriminate R |].
    destruct (index_step a v v1 H1 E S) as (S1 & K1 & C1).
    destruct (IH v1 v' H2 R S1) as (S2 & K2 & D2 & O2 & C2).
    split; [exact S2 |]. split; [eapply kept_trans; eassumption |].
    assert (DD : d_ind v1 = last_dat [a] (d_ind v) /\ o_ind v1 = last_ocb [a] (o_ind v)).
    { destruct a; cbn [index_only] in H1; try tauto; cbn [do_assign] in E; cbn [last_dat last_ocb].
      - apply set_dat_ok in E. tauto.
      - apply set_ocb_ok in E. tauto. }
    destruct DD as (DD & OO). rewrite D2, O2, DD, OO. repeat split; [| | auto]; destruct a; reflexivity.
Qed.

(** The shape kept for the results, for every history. *)
Definition sound_shape (v : vdata) : Prop := is_scalar (d_ind v) = false -> d_vs v = shape_of (d_ind v).
Lemma set_mag_same x v : fst (set_mag x v) = with_mag v (d_mag (fst (set_mag x v))).
Proof.
  unfold set_mag. destruct (lengths _ _ _) as [s | err]; [| destruct v; reflexivity].
  destruct (all_nan x); [destruct v; reflexivity |]. destruct (lift2 _ x s); destruct v; reflexivity.
Qed.
Lemma assign_sound a v v' : do_assign a v = (v', None) -> sound_shape v -> sound_shape v'.
Proof.
  unfold sound_shape. destruct a; cbn [do_assign]; intros H S; try (inversion H; subst v'; exact S).
  - apply set_dat_ok in H. destruct H as (D & _ & _ & _ & _ & _ & _ & _ & _ & _ & _ & _ & _ & _ & _ & _ & _ & _ & V & _).
    rewrite D, V. intros X. rewrite X. reflexivity.
  - apply set_ocb_ok in H. destruct H as (D & _ & _ & _ & _ & _ & _ & _ & _ & _ & _ & V & _).
    rewrite D. intros X. rewrite V by exact X. apply S, X.
  - pose proof (set_mag_same x v) as E. rewrite H in E. cbn [fst] in E. rewrite E. exact S.
Qed.
Lemma run_sound h : forall v v', run h v = Ok v' -> sound_shape v -> sound_shape v'.
Proof.
  induction h as [| a h IH]; cbn [run]; intros v v' R S; [inversion R; subst; exact S |].
  destruct (do_assign a v) as [v1 [e |]] eqn:E; [discriminate R |]. eapply IH; [exact R | eapply assign_sound; eassumption].
Qed.
Lemma reachable_sound v : reachable v -> sound_shape v.
Proof.
  intros (dat & ocb & lat & lt & h & n & e & z & mag & olat & omlt & rc & v0 & hist & C & R).
  eapply run_sound; [exact R |]. apply construct_ok in C. unfold sound_shape.
  destruct C as (-> & _ & _ & _ & _ & _ & _ & _ & _ & _ & _ & _ & _ & _ & _ & _ & _ & _ & _ & V & _).
  rewrite V. intros X. rewrite X. reflexivity.
Qed.

(** The kept shape is that of a value. *)
Definition has_shape (v : vdata) : Prop := exists x : av Z, d_vs v = shape_of x.
Lemma assign_shape a v v' : do_assign a v = (v', None) -> has_shape v -> has_shape v'.
Proof.
  unfold has_shape. destruct a; cbn [do_assign]; intros H S; try (inversion H; subst v'; exact S).
  - apply set_dat_ok in H. destruct H as (D & _ & _ & _ & _ & _ & _ & _ & _ & _ & _ & _ & _ & _ & _ & _ & _ & _ & V & _).
    rewrite V. destruct (is_scalar x); eauto.
  - destruct (set_ocb_form x v) as [(v1 & T & E) | [(T & E) | [(T & SD & E) | [(T & SD & C & E) | (T & SD & SX & C & E)]]]];
      rewrite E in H; inversion H; subst v'; try discriminate; cbn [clear_data with_out with_vs unset with_coords with_oind d_vs]; eauto.
    apply test_bound_ok in T. destruct T as (W & [V | (_ & _ & V)] & _); rewrite V; cbn [with_oind d_vs o_ind]; eauto.
  - pose proof (set_mag_same x v) as E. rewrite H in E. cbn [fst] in E. rewrite E. exact S.
Qed.
Lemma run_shapes h : forall v v', run h v = Ok v' -> has_shape v -> has_shape v'.
Proof.
  induction h as [| a h IH]; cbn [run]; intros v v' R S; [inversion R; subst; exact S |].
  destruct (do_assign a v) as [v1 [e |]] eqn:E; [discriminate R |]. eapply IH; [exact R | eapply assign_shape; eassumption].
Qed.
Lemma reachable_shape v : reachable v -> has_shape v.
Proof.
  intros (dat & ocb & lat & lt & h & n & e & z & mag & olat & omlt & rc & v0 & hist & C & R).
  eapply run_shapes; [exact R |]. apply construct_ok in C. unfold has_shape.
  destruct C as (_ & _ & _ & _ & _ & _ & _ & _ & _ & _ & _ & _ & _ & _ & _ & _ & _ & _ & _ & V & _).
  rewrite V. destruct (is_scalar dat); eauto.
Qed.
