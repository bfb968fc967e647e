(** Shapes, kept attributes, repeated calls. *)
From Coq Require Import Reals ZArith List Bool Lia Lra.
From Verif Require Import PyBase RangeModel RangeSpec RangeProofs CoordModel CoordSpec CoordProofs CoordProofs2 DualCoordModel
  VectorModel VectorSpec VectorProofs VectorProofs2 ScalingModel ScalingProofs.
Import ListNotations.
Open Scope R_scope.

(** ** Shapes *)
Lemma shape_eqb_eq a b : shape_eqb a b = true <-> a = b.
Proof.
  revert b. induction a as [|x a IH]; intros [|y b]; cbn; split; try congruence; try reflexivity.
  - intros H. apply andb_true_iff in H. destruct H as [H1 H2]. apply Nat.eqb_eq in H1. apply IH in H2. congruence.
  - intros H. injection H as -> ->. apply andb_true_iff. split; [apply Nat.eqb_refl|now apply IH].
Qed.
Lemma NoDup_snoc {A} (l : list A) x : NoDup l -> ~ In x l -> NoDup (l ++ [x]).
Proof.
  intros N I. induction N as [|y l H N IH]; cbn.
  - constructor; [intros []|constructor].
  - constructor.
    + rewrite in_app_iff. intros [Q|[Q|[]]]; [now apply H|]. apply I. now left.
    + apply IH. intros Q. apply I. now right.
Qed.
Lemma distinct_spec l : forall seen, NoDup seen -> NoDup (distinct seen l) /\ (forall s, In s (distinct seen l) <-> In s seen \/ In s l).
Proof.
  induction l as [|x l IH]; intros seen N; cbn [distinct].
  - split; [exact N|]. intros s. cbn. tauto.
  - destruct (existsb (shape_eqb x) seen) eqn:E.
    + destruct (IH seen N) as [I1 I2]. split; [exact I1|]. intros s. rewrite I2. cbn. apply existsb_exists in E.
      destruct E as [y [Y1 Y2]]. apply shape_eqb_eq in Y2. subst y. intuition congruence.
    + assert (N' : NoDup (seen ++ [x])).
      { apply NoDup_snoc; [exact N|]. intros I. assert (existsb (shape_eqb x) seen = true); [|congruence].
        apply existsb_exists. exists x. split; [exact I|now apply shape_eqb_eq]. }
      destruct (IH _ N') as [I1 I2]. split; [exact I1|]. intros s. rewrite I2, in_app_iff. cbn. tauto.
Qed.

Lemma scalar_eq s : scalar s = true <-> s = [].
Proof. destruct s; cbn; split; congruence. Qed.
Lemma scalar_neq s : scalar s = false <-> s <> [].
Proof. destruct s; cbn; split; congruence. Qed.
Lemma has_scalar_in l : has_scalar l = true <-> In [] l.
Proof.
  unfold has_scalar. rewrite existsb_exists. split.
  - intros [x [H1 H2]]. apply scalar_eq in H2. now subst.
  - intros H. exists []. auto.
Qed.

(** Every shape of [l] is scalar or [s], and [s] itself occurs unless all are scalar. *)
Lemma largest_two l s : (forall x, In x l -> x = [] \/ x = s) -> (s <> [] -> In s l) -> largest l = s.
Proof.
  intros H1 H2. unfold largest. destruct s as [|a s].
  - destruct (filter (fun s => negb (scalar s)) l) as [|y ys] eqn:E; [reflexivity|].
    assert (I : In y (filter (fun s => negb (scalar s)) l)) by (rewrite E; now left). apply filter_In in I. destruct I as [I1 I2].
    destruct (H1 y I1) as [-> | ->]; discriminate.
  - destruct (filter (fun s => negb (scalar s)) l) as [|y ys] eqn:E.
    + assert (I : In (a :: s) (filter (fun s => negb (scalar s)) l)) by (apply filter_In; split; [now apply H2|reflexivity]).
      rewrite E in I. destruct I.
    + assert (I : In y (filter (fun s => negb (scalar s)) l)) by (rewrite E; now left). apply filter_In in I. destruct I as [I1 I2].
      destruct (H1 y I1) as [-> | ->]; [discriminate|reflexivity].
Qed.

Lemma two_shapes (l : list shape) s : NoDup l -> (forall x, In x l -> x = [] \/ x = s) ->
  (length l <= 2)%nat /\ (length l = 2%nat -> In [] l) /\ (s = [] -> (length l <= 1)%nat).
Proof.
  intros N H. destruct l as [|a [|b [|c l]]]; cbn; try (intuition (try lia; congruence)).
  - inversion N as [|? ? N1 N2]; subst. destruct (H a) as [-> | ->]; [now left| |].
    + split; [lia|]. split; [auto|]. intros ->. destruct (H b) as [-> | ->]; [right; now left|..]; exfalso; apply N1; now left.
    + destruct (H b) as [-> | ->]; [right; now left| |].
      * split; [lia|]. split; [auto|]. intros ->. exfalso. apply N1. now left.
      * exfalso. apply N1. now left.
  - exfalso. inversion N as [|? ? N1 N2]; subst. inversion N2 as [|? ? N3 N4]; subst.
    destruct (H a) as [-> | ->]; [now left| |]; destruct (H b) as [-> | ->]; try (right; now left);
      try (apply N1; now left); destruct (H c) as [-> | ->]; try (right; right; now left); try (apply N1; right; now left); apply N3; now left.
Qed.

Lemma three_long {A} (l : list A) a b c : In a l -> In b l -> In c l -> a <> b -> a <> c -> b <> c -> (2 < length l)%nat.
Proof.
  intros Ha Hb Hc H1 H2 H3. assert (N : NoDup [a; b; c]).
  { constructor; [cbn; intuition congruence|]. constructor; [cbn; intuition congruence|]. constructor; [auto|constructor]. }
  apply (NoDup_incl_length N (l' := l)). intros x [<-|[<-|[<-|[]]]]; assumption.
Qed.
Lemma two_long {A} (l : list A) a b : In a l -> In b l -> a <> b -> (2 <= length l)%nat.
Proof.
  intros Ha Hb H. assert (N : NoDup [a; b]).
  { constructor; [cbn; intuition congruence|]. constructor; [auto|constructor]. }
  apply (NoDup_incl_length N (l' := l)). intros x [<-|[<-|[]]]; assumption.
Qed.

(** Scalar, or of the given shape. *)
Definition fits (s x : shape) : Prop := x = [] \/ x = s.
Definition grown (s x : shape) : shape := if scalar x then s else x.
Lemma grown_fits s x : fits s x -> grown s x = s.
Proof. unfold grown. intros [-> | ->]; [reflexivity|]. destruct (scalar s) eqn:E; [|reflexivity]. now apply scalar_eq in E. Qed.

Lemma vector_shape_ok dat lat lt n e z : fits dat lat -> fits dat lt -> fits dat n -> fits dat e -> fits dat z ->
  test_vector_shape dat (attr_shape dat lat) (attr_shape dat lt) n e z = Ok (dat, dat, dat, dat).
Proof.
  intros Hlat Hlt Hn He Hz. unfold test_vector_shape.
  assert (A : forall x, fits dat x -> attr_shape dat x = dat).
  { intros x [-> | ->]; unfold attr_shape; destruct (scalar dat) eqn:E; cbn; try reflexivity; try (now apply scalar_eq in E). }
  rewrite !A by assumption. set (l := [dat; dat; dat; n; e; z]). destruct (distinct_spec l [] (NoDup_nil _)) as [N I].
  set (vs := distinct [] l) in *.
  assert (F : forall x, In x vs -> x = [] \/ x = dat).
  { intros x X. apply I in X. destruct X as [[]|X]. cbn in X. unfold fits in *.
    destruct X as [<-|[<-|[<-|[<-|[<-|[<-|[]]]]]]]; auto. }
  destruct (two_shapes vs dat N F) as (T1 & T2 & T3).
  assert (D : In dat vs) by (apply I; right; now left).
  rewrite (largest_two vs dat F (fun _ => D)).
  replace (2 <? length vs)%nat with false by (symmetry; apply Nat.ltb_ge; lia). cbn [orb].
  destruct (length vs =? 2)%nat eqn:L2.
  - apply Nat.eqb_eq in L2. specialize (T2 L2). apply has_scalar_in in T2. rewrite T2, L2. cbn [negb andb Nat.ltb Nat.leb].
    destruct (scalar dat) eqn:S; [apply scalar_eq in S; specialize (T3 S); lia|].
    fold (grown dat n) (grown dat e) (grown dat z). now rewrite !grown_fits.
  - cbn [andb]. apply Nat.eqb_neq in L2. replace (1 <? length vs)%nat with false by (symmetry; apply Nat.ltb_ge; lia). cbn [andb].
    assert (Q : forall x, In x l -> x = dat).
    { intros x X. destruct (list_eq_dec Nat.eq_dec x dat) as [Y|Y]; [exact Y|]. exfalso.
      assert (2 <= length vs)%nat; [|lia]. apply (two_long vs x dat); [apply I; now right|exact D|exact Y]. }
    rewrite (Q n), (Q e), (Q z) by (cbn; tauto). reflexivity.
Qed.

Lemma vector_shape_inv dat lat lt n e z r : test_vector_shape dat lat lt n e z = Ok r ->
  fits dat lat /\ fits dat lt /\ fits dat n /\ fits dat e /\ fits dat z.
Proof.
  unfold test_vector_shape. set (l := [lat; lt; dat; n; e; z]). destruct (distinct_spec l [] (NoDup_nil _)) as [N I].
  set (vs := distinct [] l) in *. intros H.
  destruct ((2 <? length vs)%nat || ((length vs =? 2)%nat && negb (has_scalar vs))) eqn:C; [discriminate|].
  apply orb_false_iff in C. destruct C as [C1 C2]. apply Nat.ltb_ge in C1.
  assert (G : forall x, In x l -> fits dat x).
  { intros x X. destruct (list_eq_dec Nat.eq_dec x dat) as [Y|Y]; [now right|]. left.
    assert (XI : In x vs) by (apply I; now right). assert (DI : In dat vs) by (apply I; right; cbn; tauto).
    pose proof (two_long vs x dat XI DI Y) as L. assert (L2 : length vs = 2%nat) by lia. rewrite L2 in C2, H. cbn [Nat.eqb andb] in C2.
    apply negb_false_iff in C2. rewrite C2 in H. cbn [Nat.ltb Nat.leb andb] in H. destruct (scalar dat) eqn:S; [discriminate|].
    apply scalar_neq in S. apply has_scalar_in in C2.
    destruct (list_eq_dec Nat.eq_dec x []) as [Z|Z]; [exact Z|]. exfalso.
    pose proof (three_long vs x dat [] XI DI C2 Y Z S). lia. }
  repeat split; apply G; cbn; tauto.
Qed.

(** The three boundary attributes: one shape, and scalars. *)
Lemma bound_shapes olat omlt rcorr :
  let os := distinct [] [olat; omlt; rcorr] in
  ((2 <? length os)%nat || ((length os =? 2)%nat && negb (has_scalar os)) = false <->
   exists s, fits s olat /\ fits s omlt /\ fits s rcorr).
Proof.
  cbv zeta. set (l := [olat; omlt; rcorr]). destruct (distinct_spec l [] (NoDup_nil _)) as [N I]. set (os := distinct [] l) in *. split.
  - intros C. apply orb_false_iff in C. destruct C as [C1 C2]. apply Nat.ltb_ge in C1.
    assert (E : exists s, forall x, In x os -> fits s x).
    { clear - C1 C2. destruct os as [|a [|b [|c os]]].
      - exists []. intros x [].
      - exists a. intros x [<-|[]]. now right.
      - cbn [length Nat.eqb andb] in C2. apply negb_false_iff in C2. apply has_scalar_in in C2. destruct C2 as [-> |[-> |[]]].
        + exists b. intros x [<-|[<-|[]]]; [now left|now right].
        + exists a. intros x [<-|[<-|[]]]; [now right|now left].
      - cbn in C1. lia. }
    destruct E as [s E]. exists s. repeat split; apply E, I; right; cbn; tauto.
  - intros (s & H1 & H2 & H3). assert (F : forall x, In x os -> x = [] \/ x = s).
    { intros x X. apply I in X. destruct X as [[]|X]. cbn in X. unfold fits in *. destruct X as [<-|[<-|[<-|[]]]]; auto. }
    destruct (two_shapes os s N F) as (T1 & T2 & _).
    replace (2 <? length os)%nat with false by (symmetry; apply Nat.ltb_ge; lia). cbn [orb].
    destruct (length os =? 2)%nat eqn:L; [|reflexivity]. apply Nat.eqb_eq in L. specialize (T2 L). apply has_scalar_in in T2. now rewrite T2.
Qed.

(** ** Kept attributes *)
Definition same_inputs (v v' : vel) : Prop :=
  w_lat v' = w_lat v /\ w_lt v' = w_lt v /\ w_n v' = w_n v /\ w_e v' = w_e v /\ w_z v' = w_z v.
Definition same_coords (v v' : vel) : Prop :=
  w_olat v' = w_olat v /\ w_omlt v' = w_omlt v /\ w_rc v' = w_rc v.
Definition same_radii (v v' : vel) : Prop := w_unr v' = w_unr v /\ w_scr v' = w_scr v.

Lemma mapE_length {A B} (f : A -> res B) l r : mapE f l = Ok r -> length r = length l.
Proof.
  revert r. induction l as [|x l IH]; cbn; intros r H; [injection H as <-; reflexivity|].
  destruct (f x); [|discriminate]. cbn in H. destruct (mapE f l) as [l'|]; [|discriminate]. injection H as <-. cbn. now rewrite (IH l').
Qed.
Lemma adjust_vectors_length vs rs : adjust_vectors vs = Ok rs -> length rs = length vs.
Proof.
  unfold adjust_vectors. destruct (existsb is_norm vs).
  - destruct (requad vs) as [ws|] eqn:E; [|discriminate]. cbn [bind]. unfold requad in E. apply mapE_length in E.
    destruct (negb (existsb (fun v => quad_ok (p_q v)) ws)); [discriminate|].
    destruct (negb (existsb (fun v => quad_ok (v_q v)) ws)); [discriminate|]. intros H. injection H as <-. now rewrite map_length.
  - intros H. injection H as <-. now rewrite map_length.
Qed.

Definition radii (b : bnd) (p : rec * vel) : vel :=
  put_radii (snd p) (fmap (fun c => rr (fst p) + c) (w_rc (snd p))) (Some (90 - Rabs (blat b))).
Definition outs_of (b : bnd) (sf : option sfun) (p : vel * (fl * fl * fl)) : vel :=
  let '(v, (n, e, z)) := p in
  let u := match w_unr v with Some u => u | None => None end in
  let scr := Some (90 - Rabs (blat b)) in
  put_out v (scaled sf n u scr) (scaled sf e u scr) (scaled sf z u scr).

Lemma Forall2_len {A B} (P : A -> B -> Prop) l l' : length l = length l' ->
  (forall x y, P x y) -> Forall2 P l l'.
Proof. revert l'. induction l as [|x l IH]; intros [|y l'] L H; try discriminate; constructor; auto. Qed.

Lemma radii_kept b rcs vs : length rcs = length vs ->
  Forall2 (fun v v' => same_inputs v v' /\ same_coords v v') vs (map (radii b) (combine rcs vs)).
Proof.
  revert rcs. induction vs as [|v vs IH]; intros [|rc rcs] L; try discriminate; cbn; constructor.
  - split; repeat split.
  - apply IH. now injection L.
Qed.
Lemma outs_kept b sf vs rs : length rs = length vs ->
  Forall2 (fun v v' => same_inputs v v' /\ same_coords v v' /\ same_radii v v') vs (map (outs_of b sf) (combine vs rs)).
Proof.
  revert rs. induction vs as [|v vs IH]; intros [|[[n e] z] rs] L; try discriminate; cbn; constructor.
  - split; [|split]; repeat split.
  - apply IH. now injection L.
Qed.

Lemma Forall2_refl {A} (P : A -> A -> Prop) l : (forall x, P x x) -> Forall2 P l l.
Proof. intros H. induction l; constructor; auto. Qed.
Lemma Forall2_trans' {A} (P Q R : A -> A -> Prop) a b c : (forall x y z, P x y -> Q y z -> R x z) ->
  Forall2 P a b -> Forall2 Q b c -> Forall2 R a c.
Proof.
  intros H F. revert c. induction F as [|x y a b P1 F IH]; intros c G; inversion G; subst; constructor; eauto.
Qed.
Lemma Forall2_imp {A B} (P Q : A -> B -> Prop) a b : (forall x y, P x y -> Q x y) -> Forall2 P a b -> Forall2 Q a b.
Proof. intros H. induction 1; constructor; auto. Qed.

(** The two ways [finish] ends. *)
Lemma finish_shape b sf rcs vs vs' : length rcs = length vs -> finish b sf rcs vs = Ok vs' ->
  let vs2 := map (radii b) (combine rcs vs) in
  vs' = vs2 \/ exists rs, length rs = length vs2 /\ vs' = map (outs_of b sf) (combine vs2 rs).
Proof.
  intros L. unfold finish. cbv zeta. fold (radii b).
  change (map (fun p => put_radii (snd p) (fmap (fun c => rr (fst p) + c) (w_rc (snd p))) (Some (90 - Rabs (blat b)))) (combine rcs vs))
    with (map (radii b) (combine rcs vs)).
  set (vs2 := map (radii b) (combine rcs vs)).
  assert (L2 : length vs2 = length rcs) by (unfold vs2; rewrite map_length, combine_length; lia).
  destruct (mapE _ rcs) as [poles|] eqn:EP; [|discriminate]. cbn [bind]. apply mapE_length in EP.
  destruct (forallb _ vs2 || forallb _ vs2); [discriminate|].
  destruct (mapE _ (combine poles vs2)) as [angs|] eqn:EA; [|discriminate]. cbn [bind]. apply mapE_length in EA. rewrite combine_length in EA.
  destruct (forallb isnan angs); [intros H; injection H as <-; now left|].
  destruct (mapE _ (combine (combine poles angs) vs2)) as [ins|] eqn:EI; [|discriminate]. cbn [bind]. apply mapE_length in EI.
  rewrite !combine_length in EI. destruct (adjust_vectors ins) as [outs|] eqn:EO; [|discriminate]. cbn [bind].
  apply adjust_vectors_length in EO. intros H. injection H as <-. right. exists outs. split; [lia|]. reflexivity.
Qed.

Lemma finish_kept b sf rcs vs vs' : length rcs = length vs -> finish b sf rcs vs = Ok vs' ->
  Forall2 (fun v v' => same_inputs v v' /\ same_coords v v') vs vs'.
Proof.
  intros L H. destruct (finish_shape _ _ _ _ _ L H) as [-> |[rs [LR ->]]].
  - now apply radii_kept.
  - eapply Forall2_trans'; [|apply radii_kept, L|apply outs_kept, LR]. cbn beta.
    unfold same_inputs, same_coords, same_radii. intuition congruence.
Qed.

(** Repeating [finish] changes nothing. *)
Lemma mapE_combine_ext {A B C} (f : A * B -> res C) (Q : B -> B -> Prop) ps vs ws :
  (forall p v w, Q v w -> f (p, v) = f (p, w)) -> Forall2 Q vs ws -> mapE f (combine ps vs) = mapE f (combine ps ws).
Proof.
  intros H F. revert ps. induction F as [|v w vs ws Hq F IH]; intros [|p ps]; cbn; try reflexivity. now rewrite (H p v w Hq), IH.
Qed.
Lemma forallb_ext2 {B} (f : B -> bool) (Q : B -> B -> Prop) vs ws :
  (forall v w, Q v w -> f v = f w) -> Forall2 Q vs ws -> forallb f vs = forallb f ws.
Proof. intros H F. induction F as [|v w vs ws Hq F IH]; cbn; [reflexivity|]. now rewrite (H v w Hq), IH. Qed.

Lemma radii_again b rcs vs : map (radii b) (combine rcs (map (radii b) (combine rcs vs))) = map (radii b) (combine rcs vs).
Proof. revert vs. induction rcs as [|rc rcs IH]; intros [|v vs]; cbn; try reflexivity. f_equal. apply IH. Qed.
Lemma radii_outs b sf rcs vs rs : map (radii b) (combine rcs (map (outs_of b sf) (combine (map (radii b) (combine rcs vs)) rs))) =
  map (outs_of b sf) (combine (map (radii b) (combine rcs vs)) rs).
Proof.
  revert vs rs. induction rcs as [|rc rcs IH]; intros [|v vs] [|[[n e] z] rs]; cbn; try reflexivity. f_equal. apply IH.
Qed.
Lemma outs_again b sf vs rs : map (outs_of b sf) (combine (map (outs_of b sf) (combine vs rs)) rs) = map (outs_of b sf) (combine vs rs).
Proof. revert rs. induction vs as [|v vs IH]; intros [|[[n e] z] rs]; cbn; try reflexivity. f_equal. apply IH. Qed.

Definition keep3 (v v' : vel) : Prop := same_inputs v v' /\ same_coords v v' /\ same_radii v v'.
Lemma finish_again b sf rcs vs vs' : length rcs = length vs -> finish b sf rcs vs = Ok vs' -> finish b sf rcs vs' = Ok vs'.
Proof.
  intros L H. unfold finish in H |- *. cbv zeta in H |- *.
  change (fun p => put_radii (snd p) (fmap (fun c => rr (fst p) + c) (w_rc (snd p))) (Some (90 - Rabs (blat b)))) with (radii b) in *.
  fold (outs_of b sf) in *.
  set (vs2 := map (radii b) (combine rcs vs)) in *.
  assert (L2 : length vs2 = length rcs) by (unfold vs2; rewrite map_length, combine_length; lia).
  destruct (mapE _ rcs) as [poles|] eqn:EP; [|discriminate]. cbn [bind] in *. pose proof (mapE_length _ _ _ EP) as LP.
  destruct (forallb (fun v => isnan (w_lt v)) vs2 || forallb (fun v => isnan (w_lat v)) vs2) eqn:EN; [discriminate|].
  destruct (mapE _ (combine poles vs2)) as [angs|] eqn:EA; [|discriminate]. cbn [bind] in *. pose proof (mapE_length _ _ _ EA) as LA. rewrite combine_length in LA.
  destruct (forallb isnan angs) eqn:EX.
  - injection H as <-. assert (R2 : map (radii b) (combine rcs vs2) = vs2) by apply radii_again. rewrite R2.
    rewrite EN, EA. cbn [bind]. now rewrite EX.
  - destruct (mapE _ (combine (combine poles angs) vs2)) as [ins|] eqn:EI; [|discriminate]. cbn [bind] in *. pose proof (mapE_length _ _ _ EI) as LI.
    rewrite !combine_length in LI. destruct (adjust_vectors ins) as [outs|] eqn:EO; [|discriminate]. cbn [bind] in *.
    pose proof (adjust_vectors_length _ _ EO) as LO. injection H as <-.
    set (vs3 := map (outs_of b sf) (combine vs2 outs)) in *.
    assert (R3 : map (radii b) (combine rcs vs3) = vs3) by apply radii_outs. rewrite R3.
    assert (K : Forall2 keep3 vs2 vs3) by (apply outs_kept; lia).
    assert (EN3 : forallb (fun v => isnan (w_lt v)) vs3 || forallb (fun v => isnan (w_lat v)) vs3 = false).
    { rewrite <- EN. f_equal; symmetry; refine (forallb_ext2 _ keep3 _ _ _ K); intros v w ((E1 & E2 & _) & _); rewrite ?E1, ?E2; reflexivity. }
    rewrite EN3. match goal with |- context [mapE ?f (combine poles vs3)] =>
      rewrite <- (mapE_combine_ext f keep3 poles vs2 vs3 ltac:(intros p v w ((E1 & E2 & _) & _); cbn [fst snd]; rewrite E1, E2; reflexivity) K) end.
    rewrite EA. cbn [bind]. rewrite EX.
    match goal with |- context [mapE ?f (combine (combine poles angs) vs3)] =>
      rewrite <- (mapE_combine_ext f keep3 (combine poles angs) vs2 vs3
      ltac:(intros [pp aa] v w ((E1 & E2 & E3 & E4 & E5) & _); cbn [fst snd]; rewrite E1, E2, E3, E4, E5; reflexivity) K) end.
    rewrite EI. cbn [bind]. rewrite EO. cbn [bind]. unfold vs3. now rewrite outs_again.
Qed.

Lemma finish1_kept b sf rc v v' : finish1 b sf rc v = Ok v' -> same_inputs v v' /\ same_coords v v'.
Proof.
  unfold finish1. cbv zeta. destruct (get_pole_loc _ _) as [p|]; [|discriminate]. cbn [bind].
  destruct (isnan _ || isnan _); [discriminate|]. destruct (calc_vec_pole_angle _ _ _ _) as [a|]; [|discriminate]. cbn [bind].
  destruct (isnan a); [intros H; injection H as <-; split; repeat split|].
  destruct (define_pole_quadrants _ _ _) as [q|]; [|discriminate]. cbn [bind].
  destruct (adjust_vector _) as [[[n e] z]|]; [|discriminate]. cbn [bind].
  destruct sf; intros H; injection H as <-; split; repeat split.
Qed.
Lemma finish1_again b sf rc v v' : finish1 b sf rc v = Ok v' -> finish1 b sf rc v' = Ok v'.
Proof.
  unfold finish1. cbv zeta. destruct (get_pole_loc _ _) as [p|] eqn:EP; [|discriminate]. cbn [bind].
  destruct (isnan _ || isnan _) eqn:EN; [discriminate|]. destruct (calc_vec_pole_angle _ _ _ _) as [a|] eqn:EA; [|discriminate]. cbn [bind].
  destruct (isnan a) eqn:EX.
  - intros H; injection H as <-. cbn [put_radii w_lt w_lat w_rc] in *. rewrite EN, EA. cbn [bind]. now rewrite EX.
  - destruct (define_pole_quadrants _ _ _) as [q|] eqn:EQ; [|discriminate]. cbn [bind].
    destruct (adjust_vector _) as [[[n e] z]|] eqn:EV; [|discriminate]. cbn [bind].
    cbn [put_radii w_lt w_lat w_n w_e w_z w_rc] in *.
    destruct sf; intros H; injection H as <-; cbn [put_radii put_out w_lt w_lat w_rc w_n w_e w_z]; rewrite EN, EA; cbn [bind]; rewrite EX, EQ; cbn [bind];
      rewrite EV; reflexivity.
Qed.
