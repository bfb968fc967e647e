(** C142: the text of VectorData. *)
From Coq Require Import String Ascii Reals ZArith List Bool Lia Lra PeanoNat.
From Verif Require Import PyBase PyString RangeModel CoordModel DualCoordModel VectorModel ScalingModel LocModel VdataModel VdataSpec VdataProofs
  VtextModel VtextSpec VtextProofs VtextProofs2.
Import ListNotations.
Open Scope list_scope.

Section Str.
Context {G : Type} (gname : G -> string).
Notation text := (vstr gname).
Notation labels := (labels (G := G)).
(** The lines before and after the values. *)
Definition top (w : labels) (v : vdata) : list vline := [TTitle (lb_name w) (lb_units w); TIndex (d_ind v) (o_ind v); TRule].
Definition bottom (w : labels) : list vline := TRule :: match lb_func w with None => [TFunc None] | Some g => [TFunc (Some (gname g)); TBlank] end.

(** Every vector is shown with its location, its values and its result. *)
Theorem C142_text_partial :
  (* missing: values of other shapes, for which the text raises (C142_magnitude_refuted,
     C142_coordinates_refuted, C142_height_refuted); with several boundaries for one vector
     results are repeated (C142_repeated_refuted) *)
  (forall (w : labels) v, one_one v ->
     exists a b c x y m n e z rs, text w v = Ok (top w v ++ [TLocHead false; TLoc (lb_loc w) a b c None; TOcb x y None; TRule; TVecHead false; TVec (lb_vec w) m n e z None] ++ rs ++ bottom w) /\
       d_lat v = Sc a /\ d_lt v = Sc b /\ d_h v = Sc c /\ o_lat v = Sc x /\ o_mlt v = Sc y /\ d_mag v = Sc m /\ d_n v = Sc n /\ d_e v = Sc e /\ d_z v = Sc z /\
       exists rm rn re rz, r_mag (d_out v) = Sc rm /\ r_n (d_out v) = Sc rn /\ r_e (d_out v) = Sc re /\ r_z (d_out v) = Sc rz /\
         rs = match rm with None => [] | Some _ => [TOcbVec rm rn re rz None] end) /\
  (forall (w : labels) v, many v ->
     exists locs vecs, text w v = Ok (top w v ++ TLocHead true :: concat locs ++ [TRule; TVecHead true] ++ concat vecs ++ bottom w) /\
       blocks (d_ind v) locs (fun i b => exists x y, b = [x; y] /\ loc_of w v i x /\ ocb_of v i y) /\
       blocks (d_ind v) vecs (fun i b => exists x ys, b = x :: ys /\ vec_of w v i x /\ result_of v i ys)) /\
  (forall (w : labels) v, one_many v ->
     exists l t locs rs, text w v = Ok (top w v ++ [TLocHead true; l] ++ concat locs ++ [TRule; TVecHead true] ++
         concat (map (fun i => t :: concat (firstn (S i) rs)) (seq 0 (List.length rs))) ++ bottom w) /\
       loc_of w v 0 l /\ vec_of w v 0 t /\
       blocks (o_ind v) locs (fun i b => exists y, b = [y; TBlank] /\ ocb_of v i y) /\ blocks (o_ind v) rs (result_of v)).
Proof.
  split; [|split]; intros w v.
  - intros (A1 & A2 & A3 & A4 & A5 & A6 & A7 & A8 & A9 & A10 & A11 & RL). destruct RL as (R1 & R2 & R3 & R4 & _).
    destruct (scalar_fmt _ A1) as [d D]. rewrite D in R1, R2, R3, R4.
    assert (SC : forall q : av fl, like q (Sc d) -> exists u, q = Sc u) by (intros [u|u]; cbn; [eauto|tauto]).
    destruct (SC _ R1) as [rn RN], (SC _ R2) as [re RE], (SC _ R3) as [rz RZ], (SC _ R4) as [rm RM].
    destruct (scalar_fmt _ A2) as [o O], (scalar_fmt _ A3) as [a A], (scalar_fmt _ A4) as [b B], (scalar_fmt _ A5) as [c C], (scalar_fmt _ A6) as [x X], (scalar_fmt _ A7) as [y Y],
      (scalar_fmt _ A8) as [n N], (scalar_fmt _ A9) as [e E], (scalar_fmt _ A10) as [z Z], (scalar_fmt _ A11) as [m M].
    exists a, b, c, x, y, m, n, e, z, (match rm with None => [] | Some _ => [TOcbVec rm rn re rz None] end). split; [|repeat (split; [assumption|]); exists rm, rn, re, rz; auto 10].
    unfold vstr, loc_lines, vec_lines. rewrite D, O, A, B, C, X, Y, M, N, E, Z, RM, RN, RE, RZ. cbn [is_scalar shape_of scalar andb fmt bind].
    destruct rm; cbn [isnan bind]; unfold top, bottom; rewrite ?D, ?O; reflexivity.
  - intros M. destruct (loc_many w v M) as (locs & L & BL). destruct (vec_many w v M) as (vecs & V & BV). exists locs, vecs. split; [|auto].
    unfold vstr. rewrite L, V. cbn [bind]. unfold top, bottom. cbn [app]. rewrite <- ?app_assoc; cbn [app]; rewrite <- ?app_assoc; cbn [app]; reflexivity.
  - intros M. destruct (loc_one_many w v M) as (l & locs & L & LL & BL). destruct (vec_one_many w v M) as (t & rs & V & VV & BV). exists l, t, locs, rs. split; [|auto].
    unfold vstr. rewrite L, V. cbn [bind]. unfold top, bottom. cbn [app]. rewrite <- ?app_assoc; cbn [app]; rewrite <- ?app_assoc; cbn [app]; reflexivity.
Qed.

(** Constructed objects, with no results or those set since. *)
Theorem C142_constructed : forall dat ocb lat lt h n e z mag olat omlt rc v out,
  construct dat ocb lat lt h n e z mag olat omlt rc = Ok v ->
  let now := with_out v out in
  (scalar_value dat -> scalar_value ocb -> scalar_value h -> scalar_value olat -> scalar_value omlt -> scalar_value mag -> results_like out dat -> one_one now) /\
  (~ scalar_value dat -> (scalar_value h \/ like h dat) -> like (d_mag v) dat -> results_like out dat ->
     ~ scalar_value ocb \/ olat = Sc None /\ omlt = Sc None \/ like olat dat /\ like omlt dat -> many now) /\
  (scalar_value dat -> ~ scalar_value ocb -> scalar_value h -> scalar_value mag -> results_like out ocb -> one_many now).
Proof.
  intros dat ocb lat lt h n e z mag olat omlt rc v out C now. apply construct_ok in C.
  destruct C as (D & O & LA & LT & H & OL & OM & _ & N1 & N2 & N3 & S1 & S2 & PL & MG & G1 & G2 & G3 & _ & _ & OD & OO).
  assert (SS : forall q : av fl, scalar_value dat -> like q dat -> scalar_value q) by (intros q X Y; eapply like_scalar; eassumption).
  assert (SZ : forall (i : av Z) (q : av fl), scalar_value i -> scalar_value q -> scalar_value (sized i q)) by (intros [i|i] [q|q]; cbn; tauto).
  assert (MS : scalar_value dat -> scalar_value mag -> scalar_value (d_mag v)).
  { intros X Y. destruct (all_nan mag); [|rewrite MG; exact Y]. destruct dat as [k|]; [|destruct X].
    assert (Q : forall q : av fl, shape_of q = [] \/ shape_of q = shape_of (Sc k) -> exists u, q = Sc u) by (intros [u|u] [V|V]; try discriminate V; eauto).
    destruct (Q n G1) as [u ->], (Q e G2) as [u' ->], (Q z G3) as [u'' ->]. unfold lengths in MG. cbn in MG. injection MG as <-. exact I. }
  unfold one_one, many, one_many. subst now. cbn [with_out d_ind o_ind d_lat d_lt d_h d_n d_e d_z d_mag o_lat o_mlt o_rc d_out]. rewrite D, O, OL, OM, H.
  split; [|split].
  - intros X1 X2 X3 X4 X5 X6 X7. repeat match goal with |- _ /\ _ => split end; auto.
  - intros X1 X2 X3 X4 X5. assert (L0 : like (sized dat h) dat).
    { destruct X2 as [X2|X2]; [destruct h; [|destruct X2]; apply like_shape, full_shape|destruct h, dat; cbn in *; tauto]. }
    assert (SO : scalar_value ocb \/ like ocb dat).
    { destruct ocb as [k|l]; [left; exact I|right]. apply OD; [destruct dat; [cbn in X1; tauto|reflexivity]|reflexivity]. }
    repeat match goal with |- _ /\ _ => split end; auto.
    destruct ocb as [k|l].
    + destruct X5 as [X5|[[-> ->]|[P Q]]]; [cbn in X5; tauto|right; cbn; auto|left]. destruct olat, omlt, dat; cbn in *; tauto.
    + left. destruct SO as [SO|SO]; [destruct SO|]. destruct OO as (P & Q & _); [reflexivity|]. rewrite OL in P. rewrite OM in Q. split; eapply like_trans; eassumption.
  - intros X1 X2 X3 X4 X5. destruct ocb as [k|l]; [cbn in X2; tauto|]. destruct OO as (P & Q & _); [reflexivity|]. rewrite OL in P. rewrite OM in Q.
    repeat match goal with |- _ /\ _ => split end; auto.
Qed.
End Str.

Definition no_labels : labels (G := unit) := mkLabels None None "magnetic" "magnetic" None.
Notation txt := (vstr (fun _ : unit => "f"%string)).
Notation one := (Sc (Some 1%R)).
Notation nan := (Sc None).
(** One value of each component for two indices: the text raises. *)
Theorem C142_magnitude_refuted : exists v, construct (Ar [0; 1]%Z) (Sc 0%Z) (Sc (Some 75%R)) one (Sc (Some 350%R)) one one one nan nan nan nan = Ok v /\ txt no_labels v = Err TypeError.
Proof. eexists. split; lazy -[sqrt pow Rplus Rmult IZR not]; reflexivity. Qed.
(** One pair of boundary coordinates for two vectors and one boundary: the text raises. *)
Theorem C142_coordinates_refuted : exists v, construct (Ar [0; 1]%Z) (Sc 0%Z) (Sc (Some 75%R)) one (Sc (Some 350%R)) (Ar [Some 1; Some 2]%R) one one nan (Sc (Some 80%R)) one one = Ok v /\
  txt no_labels v = Err IndexError.
Proof. eexists. split; lazy -[sqrt pow Rplus Rmult IZR not]; reflexivity. Qed.
(** Two heights for one vector: the text raises. *)
Theorem C142_height_refuted : exists v, construct (Sc 0%Z) (Sc 0%Z) (Sc (Some 75%R)) one (Ar [Some 350; Some 400]%R) one one one nan nan nan nan = Ok v /\ txt no_labels v = Err TypeError.
Proof. eexists. split; lazy -[sqrt pow Rplus Rmult IZR not]; reflexivity. Qed.
(** The result for the first of two boundaries is shown twice. *)
Definition two_results : outputs :=
  let n := Ar [Some 1; Some 2]%R in let z := Ar [Some 0; Some 0]%R in mkOut n z z n z z z z z.
Theorem C142_repeated_refuted : exists v ls, construct (Sc 0%Z) (Ar [4; 5]%Z) (Sc (Some 75%R)) one (Sc (Some 350%R)) one one one nan nan nan nan = Ok v /\
  results_like two_results (o_ind v) /\ txt no_labels (with_out v two_results) = Ok ls /\
  exists x a b c, ls = a ++ x :: b ++ x :: c /\ x = TOcbVec (Some 1%R) (Some 1%R) (Some 0%R) (Some 0%R) (Some 4%Z).
Proof.
  eexists. eexists. split; [lazy -[sqrt pow Rplus Rmult IZR not]; reflexivity|]. split; [repeat split|]. split; [lazy -[sqrt pow Rplus Rmult IZR not]; reflexivity|].
  eexists. eexists [_; _; _; _; _; _; _; _; _; _; _; _], [_], _. split; [cbn [app]; reflexivity|reflexivity].
Qed.
Example C142_case :
  (exists v, construct (Sc 0%Z) (Sc 0%Z) (Sc (Some 75%R)) one (Sc (Some 350%R)) one one one nan nan nan nan = Ok v /\ one_one v) /\
  (exists v, construct (Ar [0; 1]%Z) (Ar [3; 4]%Z) (Sc (Some 75%R)) one (Sc (Some 350%R)) (Ar [Some 1; Some 2]%R) one one nan nan nan nan = Ok v /\ many v) /\
  (exists v, construct (Sc 0%Z) (Ar [3; 4]%Z) (Sc (Some 75%R)) one (Sc (Some 350%R)) one one one nan nan nan nan = Ok v /\ one_many v).
Proof.
  assert (E : forall v, v = with_out v (d_out v)) by (intros []; reflexivity).
  assert (X : forall dat ocb lat lt h n e z mag olat omlt rc v, construct dat ocb lat lt h n e z mag olat omlt rc = Ok v ->
    (scalar_value dat -> results_like (d_out v) ocb) /\ (~ scalar_value dat -> results_like (d_out v) dat)).
  { intros dat ocb lat lt h n e z mag olat omlt rc v C. apply construct_ok in C. destruct C as (_ & _ & _ & _ & _ & _ & _ & _ & _ & _ & _ & _ & _ & _ & _ & _ & _ & _ & -> & -> & _).
    split; destruct dat; cbn [scalar_value is_scalar shape_of scalar]; try tauto; intros _; [apply cleared_like|apply (cleared_like (Ar l))]. }
  split; [|split].
  - assert (C : exists v, construct (Sc 0%Z) (Sc 0%Z) (Sc (Some 75%R)) one (Sc (Some 350%R)) one one one nan nan nan nan = Ok v) by (eexists; lazy -[sqrt pow Rplus Rmult IZR not]; reflexivity).
    destruct C as [v C]. exists v. split; [exact C|]. rewrite (E v). destruct (X _ _ _ _ _ _ _ _ _ _ _ _ _ C) as [R _]. apply (proj1 (C142_constructed _ _ _ _ _ _ _ _ _ _ _ _ _ (d_out v) C)); cbn; auto.
    specialize (R I). exact R.
  - assert (C : exists v, construct (Ar [0; 1]%Z) (Ar [3; 4]%Z) (Sc (Some 75%R)) one (Sc (Some 350%R)) (Ar [Some 1; Some 2]%R) one one nan nan nan nan = Ok v /\ like (d_mag v) (Ar [0; 1]%Z)).
    { eexists. split; [lazy -[sqrt pow Rplus Rmult IZR not]; reflexivity|reflexivity]. }
    destruct C as (v & C & M). exists v. split; [exact C|]. rewrite (E v). destruct (X _ _ _ _ _ _ _ _ _ _ _ _ _ C) as [_ R]. apply (proj1 (proj2 (C142_constructed _ _ _ _ _ _ _ _ _ _ _ _ _ (d_out v) C))); cbn; auto.
    all: try (apply R; cbn; auto).
  - assert (C : exists v, construct (Sc 0%Z) (Ar [3; 4]%Z) (Sc (Some 75%R)) one (Sc (Some 350%R)) one one one nan nan nan nan = Ok v) by (eexists; lazy -[sqrt pow Rplus Rmult IZR not]; reflexivity).
    destruct C as [v C]. exists v. split; [exact C|]. rewrite (E v). destruct (X _ _ _ _ _ _ _ _ _ _ _ _ _ C) as [R _]. apply (proj2 (proj2 (C142_constructed _ _ _ _ _ _ _ _ _ _ _ _ _ (d_out v) C))); cbn; auto.
    all: try (apply R; exact I).
Qed.
Print Assumptions C142_text_partial.
Print Assumptions C142_constructed.
Print Assumptions C142_magnitude_refuted.
Print Assumptions C142_coordinates_refuted.
Print Assumptions C142_height_refuted.
Print Assumptions C142_repeated_refuted.
