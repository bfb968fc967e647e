(** Proofs about the texts of VectorData. *)
From Coq Require Import String Ascii Reals ZArith List Bool Lia Lra PeanoNat.
From Verif Require Import PyBase PyString RangeModel CoordModel DualCoordModel VectorModel ScalingModel LocModel VdataModel VdataSpec VdataProofs
  BreprProofs VtextModel VtextSpec.
Import ListNotations.
Open Scope list_scope.

Lemma replaced_plain s : plain s -> replaced s = s.
Proof.
  unfold plain. induction s as [|c s IH]; [reflexivity|]. intros H. unfold replaced; fold replaced. unfold has_sub in H; fold has_sub in H.
  destruct (prefix "array" (String c s)); [discriminate H|]. rewrite IH by exact H. reflexivity.
Qed.
Lemma replaced_opt s : plain_opt s -> option_map replaced s = s.
Proof. destruct s; cbn; [intros H; rewrite replaced_plain by exact H|]; reflexivity. Qed.

(** ** Constructing again *)
Lemma same_distinct (s : shape) n : distinct [] (repeat s (S n)) = [s].
Proof.
  assert (Q : shape_eqb s s = true) by (apply shape_eqb_eq; reflexivity).
  cbn [repeat distinct existsb app]. induction n as [|n IH]; [reflexivity|]. cbn [repeat distinct existsb]. rewrite Q. cbn [orb]. exact IH.
Qed.
Lemma test_vector_same v : shape_of (d_lat v) = shape_of (d_ind v) -> shape_of (d_lt v) = shape_of (d_ind v) ->
  shape_of (d_n v) = shape_of (d_ind v) -> shape_of (d_e v) = shape_of (d_ind v) -> shape_of (d_z v) = shape_of (d_ind v) ->
  test_vector v = (with_vs v (shape_of (d_ind v)), None).
Proof.
  intros A B C D E. unfold test_vector. rewrite A, B, C, D, E. change [?s; ?s; ?s; ?s; ?s; ?s] with (repeat (shape_of (d_ind v)) 6).
  rewrite (same_distinct (shape_of (d_ind v)) 5). reflexivity.
Qed.
Lemma test_bound_same v s : shape_of (o_lat v) = s -> shape_of (o_mlt v) = s -> shape_of (o_rc v) = s ->
  is_scalar (o_ind v) = true \/ s = shape_of (o_ind v) -> (is_scalar (o_ind v) = false -> is_scalar (d_ind v) = false -> d_vs v = s) ->
  test_bound v = Passed (if is_scalar (o_ind v) then v else if is_scalar (d_ind v) then with_vs v s else v).
Proof.
  intros A B C D E. unfold test_bound. rewrite A, B, C. change [s; s; s] with (repeat s 3). rewrite (same_distinct s 2). cbn [List.length max_shape min_shape fold_left].
  change (2 <? 1)%nat with false. change (1 =? 2)%nat with false. cbn [andb orb]. rewrite !orb_false_r.
  destruct (is_scalar (o_ind v)) eqn:SO; [reflexivity|]. destruct D as [D|D]; [discriminate D|]. cbn [negb andb].
  assert (SS : scalar s = false) by (rewrite D; exact SO).
  rewrite SS, D. replace (shape_eqb (shape_of (o_ind v)) (shape_of (o_ind v))) with true by (symmetry; apply shape_eqb_eq; reflexivity). cbn [negb orb].
  destruct (is_scalar (d_ind v)); [reflexivity|]. rewrite E, <- D by reflexivity. replace (shape_eqb s s) with true by (symmetry; apply shape_eqb_eq; reflexivity). reflexivity.
Qed.
Lemma sized_like (ind : av Z) (x : av fl) : (is_scalar ind = true \/ is_scalar x = false) -> sized ind x = x.
Proof. destruct x as [a|l]; [|reflexivity]. cbn. intros [H|H]; [|discriminate H]. destruct ind; [reflexivity|discriminate H]. Qed.
Lemma sized_twice (ind : av Z) (x : av fl) : sized ind (sized ind x) = sized ind x.
Proof. apply sized_like. destruct ind, x; cbn; auto. Qed.
Lemma is_length_det m m' a b c : is_length m a b c -> is_length m' a b c -> m = m'.
Proof.
  unfold is_length. destruct a, b, c; try congruence. intros (y & -> & P & E) (y' & -> & P' & E'). f_equal. nra.
Qed.
Lemma av_ext (x y : av fl) : shape_of x = shape_of y -> (forall i a b, at_ x i = Some a -> at_ y i = Some b -> a = b) -> x = y.
Proof.
  destruct x as [a|l], y as [b|m]; cbn; intros S H; try discriminate S.
  - f_equal. exact (H 0%nat a b eq_refl eq_refl).
  - f_equal. injection S as S. revert m S H. induction l as [|x l IH]; intros [|y m] S H; cbn in S; try discriminate S; [reflexivity|].
    f_equal; [exact (H 0%nat x y eq_refl eq_refl)|]. apply IH; [lia|]. intros i. exact (H (Datatypes.S i)).
Qed.
Lemma all_nan_undefined x : all_nan x = true <-> undefined x.
Proof.
  unfold undefined. destruct x as [a|l]; cbn.
  - split; [intros H i y E; injection E as <-; destruct a; [discriminate H|reflexivity]|]. intros H. rewrite (H 0%nat a eq_refl). reflexivity.
  - rewrite forallb_forall. split.
    + intros H i y E. apply nth_error_In in E. specialize (H y E). destruct y; [discriminate H|reflexivity].
    + intros H y E. apply In_nth_error in E. destruct E as [i E]. rewrite (H i y E). reflexivity.
Qed.
Lemma at_shape {A B} (x : av A) (y : av B) i a : shape_of x = shape_of y -> at_ x i = Some a -> exists b, at_ y i = Some b.
Proof.
  destruct x as [u|l], y as [w|m]; cbn; intros S E; try discriminate S; [eauto|]. injection S as S.
  destruct (nth_error m i) eqn:N; [eauto|]. apply nth_error_None in N. assert (X : nth_error l i <> None) by congruence. apply nth_error_Some in X. lia.
Qed.
Lemma at_place (ind : av Z) {A} (x : av A) i a : shape_of x = shape_of ind -> at_ x i = Some a -> is_scalar ind = false -> place ind i.
Proof.
  destruct x as [u|l], ind as [w|m]; cbn; intros S E F; try discriminate S; try discriminate F. injection S as S. rewrite <- S. apply nth_error_Some. congruence.
Qed.

Lemma construct_again dat ocb lat lt h n e z mag olat omlt rc v a b c :
  construct dat ocb lat lt h n e z mag olat omlt rc = Ok v ->
  like (d_mag v) (d_ind v) \/ scalar_value (d_mag v) /\ a_number (d_mag v) ->
  like a b -> like a c -> scalar_value (o_ind v) \/ like a (o_ind v) ->
  construct (d_ind v) (o_ind v) (d_lat v) (d_lt v) (d_h v) (d_n v) (d_e v) (d_z v) (d_mag v) a b c = Ok (with_coords v a b c).
Proof.
  intros C M AB AC AO. pose proof (construct_ok _ _ _ _ _ _ _ _ _ _ _ _ _ C) as K.
  destruct K as (D & O & LA & LT & H & _ & _ & _ & N1 & N2 & N3 & S1 & S2 & PL & MG & G1 & G2 & G3 & OUT & VS & OD & _).
  unfold construct.
  assert (X1 : sized (d_ind v) (d_lat v) = d_lat v) by (rewrite LA, D; apply sized_twice).
  assert (X2 : sized (d_ind v) (d_lt v) = d_lt v) by (rewrite LT, D; apply sized_twice).
  assert (X3 : sized (d_ind v) (d_h v) = d_h v) by (rewrite H, D; apply sized_twice). rewrite X1, X2, X3.
  rewrite <- D in *. apply like_shape in N1, N2, N3, S1, S2.
  set (v0 := mkVd _ _ _ _ _ _ _ _ _ _ _ _ _ _).
  assert (MM : set_mag (d_mag v) v0 = (with_mag v0 (d_mag v), None)).
  { unfold set_mag. cbn [v0 d_n d_e d_z]. destruct (lengths_at (d_n v) (d_e v) (d_z v) (shape_of (d_ind v))) as (m & E & _ & SM & AT); [auto..|].
    rewrite E. specialize (SM N1 N2 N3). destruct (all_nan (d_mag v)) eqn:AN.
    - assert (m = d_mag v) as ->; [|reflexivity].
      destruct M as [M|[_ (i & y & Y)]]; [|apply all_nan_undefined in AN; specialize (AN i (Some y) Y); discriminate AN].
      apply like_shape in M. apply av_ext; [congruence|]. intros i x y X Y. destruct (all_nan mag) eqn:AM.
      2:{ rewrite <- MG, AN in AM. discriminate AM. }
      (* the magnitude found from the given components *)
      destruct (lengths_at n e z (shape_of (d_ind v))) as (m' & E' & _ & _ & AT'); [auto..|]. rewrite E' in MG. injection MG as ->.
      destruct (at_shape m (d_n v) i x) as [p P]; [congruence|exact X|]. destruct (at_shape m (d_e v) i x) as [q Q]; [congruence|exact X|]. destruct (at_shape m (d_z v) i x) as [r R']; [congruence|exact X|].
      destruct (AT i p q r P Q R') as (x' & X' & L'). rewrite X in X'. injection X' as <-.
      assert (PLI : place (d_ind v) i \/ is_scalar (d_ind v) = true).
      { destruct (is_scalar (d_ind v)) eqn:SI; [auto|]. left. eapply at_place; [|exact X|exact SI]. congruence. }
      assert (CO : at_ n i = Some p /\ at_ e i = Some q /\ at_ z i = Some r).
      { destruct PLI as [PLI|SI]; [destruct (PL i PLI) as (<- & <- & <-); auto|].
        destruct (d_ind v) as [w|] eqn:DI; [|discriminate SI]. destruct (PL 0%nat eq_refl) as (A1 & A2 & A3).
        assert (SCN : forall (s t : av fl) u, (shape_of s = [] \/ shape_of s = []) -> shape_of t = [] -> at_ t 0 = at_ s 0 -> at_ t i = Some u -> at_ s i = Some u).
        { intros s t u S T EQ AT0. destruct s as [s|]; [|cbn in S; destruct S; discriminate]. destruct t as [t|]; [|discriminate T]. cbn in *. congruence. }
        cbn in G1, G2, G3. split; [apply (SCN n (d_n v) p); [exact G1|exact N1|exact A1|exact P]|]. split; [apply (SCN e (d_e v) q); [exact G2|exact N2|exact A2|exact Q]|apply (SCN z (d_z v) r); [exact G3|exact N3|exact A3|exact R']]. }
      destruct CO as (C1 & C2 & C3). destruct (AT' i p q r C1 C2 C3) as (y' & Y' & L''). rewrite Y in Y'. injection Y' as <-. eapply is_length_det; eassumption.
    - destruct (lift2_at (fun a b : fl => (a, b)) (d_mag v) m (shape_of (d_ind v))) as (w & W & _); [|right; exact SM|rewrite W; reflexivity].
      destruct M as [M|[M _]]; [right; apply like_shape; exact M|left; destruct (d_mag v); [reflexivity|destruct M]]. }
  rewrite MM. cbn [bindO snd fst]. rewrite test_vector_same by (cbn [with_mag v0 d_lat d_lt d_ind d_n d_e d_z]; assumption).
  cbn [with_mag v0 d_ind].
  assert (Y1 : forall x : av fl, like a x -> sized (o_ind v) x = x).
  { intros x L. apply sized_like. destruct (o_ind v), a, x; cbn in *; auto; tauto. }
  rewrite (Y1 a) by (apply like_shape; reflexivity). rewrite (Y1 b AB), (Y1 c AC).
  apply like_shape in AB, AC. cbn [with_vs with_mag d_ind o_ind d_lat d_lt d_h d_n d_e d_z d_mag o_lat o_mlt o_rc d_vs d_out with_coords].
  rewrite (test_bound_same _ (shape_of a)); cbn [d_ind o_ind d_vs o_lat o_mlt o_rc]; [|reflexivity|symmetry; exact AB|symmetry; exact AC| |].
  - cbn [raising]. f_equal. rewrite <- O in *. unfold with_mag, v0, with_vs, with_coords. cbn [d_ind o_ind d_lat d_lt d_h d_n d_e d_z d_mag o_lat o_mlt o_rc d_vs d_out].
    destruct (is_scalar (o_ind v)) eqn:SO; [|destruct (is_scalar (d_ind v)) eqn:SI]; unfold clear_data, with_out; cbn [d_ind o_ind d_lat d_lt d_h d_n d_e d_z d_mag o_lat o_mlt o_rc d_vs d_out].
    + assert (VV : d_vs v = shape_of (d_ind v)).
      { rewrite VS. destruct (is_scalar (d_ind v)) eqn:SI; [|reflexivity]. apply scalar_nil in SO, SI. congruence. }
      rewrite OUT, VV.  reflexivity.
    + assert (VV : d_vs v = shape_of a).
      { rewrite VS. destruct AO as [AO|AO]; [destruct (o_ind v); [discriminate SO|destruct AO]|]. apply like_shape in AO. congruence. }
      rewrite OUT, VV. reflexivity.
    + rewrite OUT, VS. reflexivity.
  - destruct AO as [AO|AO]; [left; destruct (o_ind v); [reflexivity|destruct AO]|right; apply like_shape; exact AO].
  - intros SO SI. rewrite <- O in *. destruct AO as [AO|AO]; [destruct (o_ind v); [discriminate SO|destruct AO]|]. apply like_shape in AO. rewrite AO.
    pose proof (OD SI SO) as X. apply like_shape in X. rewrite X. reflexivity.
Qed.
