(** Lemmas on [__str__] of VectorData. *)
From Coq Require Import String Ascii Reals ZArith List Bool Lia PeanoNat.
From Verif Require Import PyBase PyString RangeModel CoordModel DualCoordModel VectorModel ScalingModel LocModel VdataModel VdataSpec VdataProofs
  BreprProofs VtextModel VtextSpec.
Import ListNotations.
Open Scope list_scope.

Lemma items_blocks {A B} (f : nat * A -> res B) (P : nat -> B -> Prop) (l : list A) : forall k,
  (forall i x, nth_error l i = Some x -> exists b, f ((k + i)%nat, x) = Ok b /\ P (k + i)%nat b) ->
  exists bs, mapE f (combine (seq k (List.length l)) l) = Ok bs /\ List.length bs = List.length l /\ forall i b, nth_error bs i = Some b -> P (k + i)%nat b.
Proof.
  induction l as [|a l IH]; intros k H; [exists []; split; [reflexivity|]; split; [reflexivity|intros [|i] b X; discriminate X]|].
  destruct (H 0%nat a eq_refl) as (b & E & Pb). rewrite Nat.add_0_r in E, Pb.
  destruct (IH (S k)) as (bs & M & L & Q). { intros i x X. specialize (H (S i) x X). rewrite Nat.add_succ_r in H. exact H. }
  exists (b :: bs). split; [cbn [List.length seq combine mapE]; rewrite E; cbn [bind]; rewrite M; reflexivity|]. split; [cbn; congruence|].
  intros [|i] c X; cbn in X; [injection X as <-; rewrite Nat.add_0_r; exact Pb|]. rewrite Nat.add_succ_r. apply (Q i c X).
Qed.
Lemma choose_rows {A B} (P : nat -> A -> B -> Prop) (ms : list A) : forall k, (forall i m, nth_error ms i = Some m -> exists y, P (k + i)%nat m y) ->
  exists rs, List.length rs = List.length ms /\ forall i y, nth_error rs i = Some y -> forall m, nth_error ms i = Some m -> P (k + i)%nat m y.
Proof.
  induction ms as [|m ms IH]; intros k H; [exists []; split; [reflexivity|intros [|i] y X; discriminate X]|].
  destruct (H 0%nat m eq_refl) as [y Y]. destruct (IH (S k)) as (rs & L & Q). { intros i x X. specialize (H (S i) x X). rewrite Nat.add_succ_r in H. exact H. }
  exists (y :: rs). split; [cbn; congruence|]. intros [|i] z Z q N; cbn in Z, N; [injection Z as <-; injection N as <-; exact Y|]. rewrite Nat.add_succ_r. apply (Q i z Z q N).
Qed.
Lemma like_get {A B} (x : av A) (l : list B) i b : like x (Ar l) -> nth_error l i = Some b -> exists a, at_ x i = Some a /\ item x i = Ok a.
Proof.
  destruct x as [a|m]; cbn; [tauto|]. intros L E. destruct (nth_error m i) as [a|] eqn:N.
  - exists a. split; [reflexivity|]. rewrite getE_nat, N. reflexivity.
  - apply nth_error_None in N. assert (X : nth_error l i <> None) by congruence. apply nth_error_Some in X. lia.
Qed.
Lemma scalar_fmt {A} (x : av A) : scalar_value x -> exists a, x = Sc a.
Proof. destruct x; cbn; [eauto|tauto]. Qed.

Section Lines.
Context {G : Type} (w : labels (G := G)) (v : vdata).

(** *** Several vectors *)
Lemma loc_many : many v -> exists locs, loc_lines w v = Ok (TLocHead true :: concat locs) /\
  blocks (d_ind v) locs (fun i b => exists x y, b = [x; y] /\ loc_of w v i x /\ ocb_of v i y).
Proof.
  intros (ND & L1 & L2 & L3 & _ & _ & _ & _ & _ & LO & OC). unfold loc_lines. destruct (d_ind v) as [d|l] eqn:D; [cbn in ND; tauto|].
  cbn [is_scalar shape_of scalar andb].
  assert (C : shape_eqb [List.length l] (shape_of (o_ind v)) || is_scalar (o_ind v) = true).
  { apply orb_true_iff. destruct LO as [LO|LO]; [right; destruct (o_ind v); [reflexivity|destruct LO]|left]. apply like_shape in LO. rewrite LO. apply shape_eqb_eq. reflexivity. }
  rewrite C. cbn [items bind].
  match goal with |- context [mapE ?f _] => destruct (items_blocks f (fun i b => exists x y, b = [x; y] /\ loc_of w v i x /\ ocb_of v i y) l 0) as (bs & M & LB & Q) end.
  2:{ rewrite M. cbn [bind]. exists bs. split; [reflexivity|]. exists l. auto. }
  intros i dind N. cbn [Nat.add]. destruct (like_get _ _ _ _ L1 N) as (a & A1 & A2). destruct (like_get _ _ _ _ L2 N) as (b & B1 & B2). destruct (like_get _ _ _ _ L3 N) as (c & C1 & C2).
  assert (O : exists oi, at_ (o_ind v) i = Some oi /\ (if is_scalar (o_ind v) then fmt (o_ind v) else item (o_ind v) i) = Ok oi).
  { destruct LO as [LO|LO]; [destruct (scalar_fmt _ LO) as [oi ->]; exists oi; split; reflexivity|]. destruct (like_get _ _ _ _ LO N) as (oi & O1 & O2). exists oi. split; [exact O1|].
    destruct (o_ind v); [destruct LO|]. exact O2. }
  destruct O as (oi & O1 & O2).
  assert (X : exists x y, at_ (o_lat v) i = Some x /\ at_ (o_mlt v) i = Some y /\
    (if match o_lat v with Sc q => isnan q | Ar _ => false end then oi <- fmt (o_ind v) ;; Ok (TOcb None None (Some oi))
     else x <- item (o_lat v) i ;; y <- item (o_mlt v) i ;; oi <- (if is_scalar (o_ind v) then fmt (o_ind v) else item (o_ind v) i) ;; Ok (TOcb x y (Some oi))) = Ok (TOcb x y (Some oi))).
  { destruct OC as [[P Q]|(S & P & Q)].
    - destruct (like_get _ _ _ _ P N) as (x & X1 & X2). destruct (like_get _ _ _ _ Q N) as (y & Y1 & Y2). exists x, y. split; [exact X1|]. split; [exact Y1|].
      destruct (o_lat v); [destruct P|]. rewrite X2. cbn [bind]. rewrite Y2. cbn [bind]. rewrite O2. reflexivity.
    - rewrite P, Q. cbn [isnan]. exists None, None. split; [reflexivity|]. split; [reflexivity|]. destruct (scalar_fmt _ S) as [q SQ]. rewrite SQ in O2 |- *. cbn in O2 |- *. congruence. }
  destruct X as (x & y & X1 & Y1 & E). rewrite E. cbn [bind]. rewrite A2, B2, C2. cbn [bind]. eexists. split; [reflexivity|]. eexists. eexists. split; [reflexivity|].
  split; [exists a, b, c, dind; rewrite D; auto 12|]. exists x, y, oi. auto.
Qed.
Lemma oind_at l i (m : fl) : (scalar_value (o_ind v) \/ like (o_ind v) (Ar l)) -> nth_error l i = Some m ->
  exists oi, at_ (o_ind v) i = Some oi /\ (if is_scalar (o_ind v) then fmt (o_ind v) else item (o_ind v) i) = Ok oi.
Proof.
  intros LO N. destruct LO as [LO|LO]; [destruct (scalar_fmt _ LO) as [oi ->]; exists oi; split; reflexivity|]. destruct (like_get _ _ _ _ LO N) as (oi & O1 & O2). exists oi. split; [exact O1|].
  destruct (o_ind v); [destruct LO|]. exact O2.
Qed.
(** The result of place [i] as the loop finds it. *)
Lemma result_line l i m vec1 : r_mag (d_out v) = Ar l -> like (r_n (d_out v)) (Ar l) -> like (r_e (d_out v)) (Ar l) -> like (r_z (d_out v)) (Ar l) ->
  (scalar_value (o_ind v) \/ like (o_ind v) (Ar l)) -> nth_error l i = Some m ->
  exists ys, result_of v i ys /\
    (if isnan m then Ok vec1
     else a <- item (r_n (d_out v)) i ;; b <- item (r_e (d_out v)) i ;; c <- item (r_z (d_out v)) i ;;
          o <- (if is_scalar (o_ind v) then fmt (o_ind v) else item (o_ind v) i) ;; Ok (vec1 ++ [TOcbVec m a b c (Some o)])) = Ok (vec1 ++ ys).
Proof.
  intros RM L1 L2 L3 LO N. destruct (like_get _ _ _ _ L1 N) as (a & A1 & A2). destruct (like_get _ _ _ _ L2 N) as (b & B1 & B2). destruct (like_get _ _ _ _ L3 N) as (c & C1 & C2).
  destruct (oind_at _ _ _ LO N) as (o & O1 & O2).
  exists (match m with None => [] | Some _ => [TOcbVec m a b c (Some o)] end). split.
  - exists m, a, b, c, o. rewrite RM. cbn [at_]. auto 12.
  - destruct m; cbn [isnan]; [|rewrite app_nil_r; reflexivity]. rewrite A2, B2, C2. cbn [bind]. rewrite O2. reflexivity.
Qed.
Lemma vec_many : many v -> exists vecs, vec_lines w v = Ok (TVecHead true :: concat vecs) /\
  blocks (d_ind v) vecs (fun i b => exists x ys, b = x :: ys /\ vec_of w v i x /\ result_of v i ys).
Proof.
  intros (ND & _ & _ & _ & L1 & L2 & L3 & L4 & RL & LO & _). destruct RL as (R1 & R2 & R3 & R4 & _).
  destruct (d_ind v) as [d|l] eqn:D; [cbn in ND; tauto|].
  unfold vec_lines. destruct (d_mag v) as [m|mags] eqn:M; [destruct L4|]. destruct (r_mag (d_out v)) as [om|oms] eqn:OM; [destruct R4|]. cbn [items bind].
  cbn in R4.
  assert (LL : forall (A : Type) (x : av A), like x (Ar l) -> like x (Ar oms)) by (intros A x; destruct x; cbn; [tauto|congruence]).
  enough (W : forall ms k vec, (forall i x, nth_error ms i = Some x -> nth_error oms (k + i) = Some x) ->
    exists vecs, vec_loop w v (combine (seq k (List.length ms)) ms) vec = Ok (concat vecs) /\ List.length vecs = List.length ms /\
      forall i b, nth_error vecs i = Some b -> exists x ys, b = x :: ys /\ vec_of w v (k + i) x /\ result_of v (k + i) ys).
  { destruct (W oms 0%nat []) as (vecs & E & LV & Q); [auto|]. rewrite E. cbn [bind]. exists vecs. split; [reflexivity|]. exists l. split; [reflexivity|]. split; [congruence|exact Q]. }
  induction ms as [|m ms IH]; intros k vec H; [exists []; split; [reflexivity|]; split; [reflexivity|intros [|i] b X; discriminate X]|].
  pose proof (H 0%nat m eq_refl) as N. rewrite Nat.add_0_r in N.
  assert (NL : exists d, nth_error l k = Some d).
  { destruct (nth_error l k) eqn:X; [eauto|]. apply nth_error_None in X. assert (Y : nth_error oms k <> None) by congruence. apply nth_error_Some in Y. lia. }
  destruct NL as [d NL].
  destruct (like_get _ _ _ _ L4 NL) as (g & G1 & G2). destruct (like_get _ _ _ _ L1 NL) as (a & A1 & A2). destruct (like_get _ _ _ _ L2 NL) as (b & B1 & B2). destruct (like_get _ _ _ _ L3 NL) as (c & C1 & C2).
  destruct (result_line oms k m [TVec (lb_vec w) g a b c (Some d)] OM) as (ys & RO & RE); [apply LL; assumption..|destruct LO as [LO|LO]; [left; exact LO|right; apply LL, LO]|exact N|].
  destruct (IH (S k) ([TVec (lb_vec w) g a b c (Some d)] ++ ys)) as (vecs & E & LV & Q). { intros i x X. specialize (H (S i) x X). rewrite Nat.add_succ_r in H. exact H. }
  exists (([TVec (lb_vec w) g a b c (Some d)] ++ ys) :: vecs). split; [|split; [cbn; congruence|]].
  - cbn [List.length seq combine vec_loop]. rewrite M. cbn [is_scalar shape_of scalar]. rewrite G2. cbn [bind]. rewrite A2, B2, C2. cbn [bind]. rewrite D. cbn [item]. rewrite getE_nat, NL. cbn [bind].
    rewrite RE. cbn [bind]. rewrite E. cbn [bind concat]. reflexivity.
  - intros [|i] q X; cbn in X.
    + injection X as <-. rewrite Nat.add_0_r. eexists. eexists. split; [reflexivity|]. split; [|exact RO]. exists g, a, b, c, d. rewrite M, D. auto 12.
    + rewrite Nat.add_succ_r. apply (Q i q X).
Qed.

(** *** One vector and several boundaries *)
Lemma loc_one_many : one_many v -> exists t os, loc_lines w v = Ok (TLocHead true :: t :: concat os) /\ loc_of w v 0 t /\
  blocks (o_ind v) os (fun i b => exists y, b = [y; TBlank] /\ ocb_of v i y).
Proof.
  intros (SD & NO & S1 & S2 & S3 & _ & _ & _ & _ & L1 & L2 & _). unfold loc_lines.
  destruct (scalar_fmt _ SD) as [d D], (scalar_fmt _ S1) as [a A], (scalar_fmt _ S2) as [b B], (scalar_fmt _ S3) as [c C].
  destruct (o_ind v) as [o|l] eqn:O; [cbn in NO; tauto|]. rewrite D, A, B, C. cbn [is_scalar shape_of scalar andb shape_eqb orb fmt bind items].
  match goal with |- context [mapE ?f _] => destruct (items_blocks f (fun i b => exists y, b = [y; TBlank] /\ ocb_of v i y) l 0) as (bs & M & LB & Q) end.
  2:{ rewrite M. cbn [bind]. exists (TLoc (lb_loc w) a b c (Some d)), bs. split; [reflexivity|]. split; [|exists l; auto 12]. exists a, b, c, d. rewrite A, B, C, D. auto 12. }
  intros i oind N. cbn [Nat.add]. destruct (like_get _ _ _ _ L1 N) as (x & X1 & X2). destruct (like_get _ _ _ _ L2 N) as (y & Y1 & Y2). rewrite X2. cbn [bind]. rewrite Y2. cbn [bind].
  eexists. split; [reflexivity|]. eexists. split; [reflexivity|]. exists x, y, oind. rewrite O. auto.
Qed.
Lemma vec_one_many : one_many v -> exists t rs, vec_lines w v = Ok (TVecHead true :: concat (map (fun i => t :: concat (firstn (S i) rs)) (seq 0 (List.length rs)))) /\
  vec_of w v 0 t /\ blocks (o_ind v) rs (result_of v).
Proof.
  intros (SD & NO & _ & _ & _ & S1 & S2 & S3 & S4 & _ & _ & RL). destruct RL as (R1 & R2 & R3 & R4 & _).
  destruct (scalar_fmt _ SD) as [d D], (scalar_fmt _ S1) as [a A], (scalar_fmt _ S2) as [b B], (scalar_fmt _ S3) as [c C], (scalar_fmt _ S4) as [g M].
  destruct (o_ind v) as [o|l] eqn:O; [cbn in NO; tauto|]. unfold vec_lines. rewrite M. destruct (r_mag (d_out v)) as [om|oms] eqn:OM; [destruct R4|]. cbn [items bind]. cbn in R4.
  set (t := TVec (lb_vec w) g a b c (Some d)).
  assert (LL : forall (A : Type) (x : av A), like x (Ar l) -> like x (Ar oms)) by (intros X x; destruct x; cbn; [tauto|congruence]).
  (* the results of all places *)
  assert (RS : exists rs, List.length rs = List.length oms /\ forall i y, nth_error rs i = Some y -> forall m, nth_error oms i = Some m ->
    result_of v i y /\ forall vec1, (if isnan m then Ok vec1
     else a <- item (r_n (d_out v)) i ;; b <- item (r_e (d_out v)) i ;; c <- item (r_z (d_out v)) i ;;
          o <- (if is_scalar (o_ind v) then fmt (o_ind v) else item (o_ind v) i) ;; Ok (vec1 ++ [TOcbVec m a b c (Some o)])) = Ok (vec1 ++ y)).
  { assert (ONE : forall i m, nth_error oms i = Some m -> exists y, result_of v i y /\ forall vec1, (if isnan m then Ok vec1
     else a <- item (r_n (d_out v)) i ;; b <- item (r_e (d_out v)) i ;; c <- item (r_z (d_out v)) i ;;
          o <- (if is_scalar (o_ind v) then fmt (o_ind v) else item (o_ind v) i) ;; Ok (vec1 ++ [TOcbVec m a b c (Some o)])) = Ok (vec1 ++ y)).
    { intros i m N. assert (LO : scalar_value (o_ind v) \/ like (o_ind v) (Ar oms)) by (right; rewrite O; cbn; congruence).
      destruct (like_get _ _ _ _ (LL _ _ R1) N) as (a' & A1 & A2). destruct (like_get _ _ _ _ (LL _ _ R2) N) as (b' & B1 & B2). destruct (like_get _ _ _ _ (LL _ _ R3) N) as (c' & C1 & C2).
      destruct (oind_at _ _ _ LO N) as (o' & O1 & O2).
      exists (match m with None => [] | Some _ => [TOcbVec m a' b' c' (Some o')] end). split.
      - exists m, a', b', c', o'. rewrite OM. cbn [at_]. auto 12.
      - intros vec1. destruct m; cbn [isnan]; [|rewrite app_nil_r; reflexivity]. rewrite A2, B2, C2. cbn [bind]. rewrite O2. reflexivity. }
    exact (choose_rows (fun i m y => result_of v i y /\ forall vec1, (if isnan m then Ok vec1
     else a <- item (r_n (d_out v)) i ;; b <- item (r_e (d_out v)) i ;; c <- item (r_z (d_out v)) i ;;
          o <- (if is_scalar (o_ind v) then fmt (o_ind v) else item (o_ind v) i) ;; Ok (vec1 ++ [TOcbVec m a b c (Some o)])) = Ok (vec1 ++ y)) oms 0 ONE). }
  destruct RS as (rs & LR & RS).
  assert (LOOP : forall n k vec, (n + k = List.length oms)%nat -> (k <> 0%nat -> vec = t :: concat (firstn k rs)) ->
    vec_loop w v (combine (seq k n) (skipn k oms)) vec = Ok (concat (map (fun i => t :: concat (firstn (S i) rs)) (seq k n)))).
  { induction n as [|n IH]; intros k vec LN V; [reflexivity|].
    destruct (nth_error oms k) as [m|] eqn:N; [|apply nth_error_None in N; lia].
    destruct (nth_error rs k) as [y|] eqn:Y; [|apply nth_error_None in Y; lia].
    assert (SK : skipn k oms = m :: skipn (S k) oms).
    { clear - N. revert oms N. induction k as [|k IH]; intros [|x oms] N; try discriminate N; cbn in N; [injection N as ->; reflexivity|]. cbn [skipn]. apply IH, N. }
    rewrite SK. cbn [seq combine vec_loop]. rewrite M. cbn [is_scalar shape_of scalar].
    destruct (RS k y Y m N) as [_ RE].
    assert (FN : concat (firstn (S k) rs) = concat (firstn k rs) ++ y).
    { clear - Y. revert rs Y. induction k as [|k IH]; intros [|x rs] Y; try discriminate Y; cbn in Y; [injection Y as ->; cbn; rewrite app_nil_r; reflexivity|].
      change (firstn (S (S k)) (x :: rs)) with (x :: firstn (S k) rs). change (firstn (S k) (x :: rs)) with (x :: firstn k rs). cbn [concat]. rewrite (IH rs Y). rewrite app_assoc. reflexivity. }
    assert (V1 : (if (k =? 0)%nat then m0 <- fmt (Sc g);; a0 <- fmt (d_n v);; b0 <- fmt (d_e v);; c0 <- fmt (d_z v);; d0 <- fmt (d_ind v);; Ok [TVec (lb_vec w) m0 a0 b0 c0 (Some d0)] else Ok vec) = Ok (t :: concat (firstn k rs))).
    { destruct (Nat.eqb_spec k 0) as [->|NZ]; [|rewrite V by exact NZ; reflexivity]. rewrite A, B, C, D. reflexivity. }
    rewrite V1. cbn [bind]. rewrite RE. cbn [bind]. rewrite (IH (S k)); [|lia|intros _; rewrite FN; reflexivity]. cbn [bind map concat]. rewrite FN. reflexivity. }
  specialize (LOOP (List.length oms) 0%nat []). cbn [skipn] in LOOP. rewrite LOOP; [|lia|congruence]. cbn [bind]. exists t, rs. split; [rewrite LR; reflexivity|].
  split; [exists g, a, b, c, d; rewrite A, B, C, D, M; auto 12|]. exists l. split; [reflexivity|]. split; [congruence|].
  intros i y Y. destruct (nth_error oms i) as [m|] eqn:N; [exact (proj1 (RS i y Y m N))|]. apply nth_error_None in N. assert (X : nth_error rs i <> None) by congruence. apply nth_error_Some in X. lia.
Qed.
End Lines.
