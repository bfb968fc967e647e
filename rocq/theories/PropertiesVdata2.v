(** C136: a VectorData of one vector, its boundary index assigned anew and [set_ocb] called. *)
From Coq Require Import Reals ZArith List Bool Lia Lra.
From Verif Require Import PyBase RangeModel RangeSpec RangeProofs CoordModel CoordSpec CoordProofs CoordProofs2 DualCoordModel
  VectorModel VectorSpec VectorProofs VectorProofs2 PropertiesCoord PropertiesVector
  ScalingModel ScalingProofs ScalingProofs2 ScalingProofs3 ScalingProofs4 ScalingProofs5 ScalingSpec PropertiesScaling PropertiesScaling2
  VdataModel VdataSpec.
Import ListNotations.
Open Scope R_scope.

(** An object with one data index and one boundary index has the attributes of [w], on which
    [set_ocb] of ScalingModel works. *)
Definition holds (v : vdata) (w : vel) : Prop :=
  scalar_value (d_ind v) /\ scalar_value (o_ind v) /\ d_vs v = [] /\
  d_lat v = Sc (w_lat w) /\ d_lt v = Sc (w_lt w) /\ d_n v = Sc (w_n w) /\ d_e v = Sc (w_e w) /\ d_z v = Sc (w_z w) /\
  o_lat v = Sc (w_olat w) /\ o_mlt v = Sc (w_omlt w) /\ o_rc v = Sc (w_rc w) /\
  r_n (d_out v) = Sc (w_on w) /\ r_e (d_out v) = Sc (w_oe w) /\ r_z (d_out v) = Sc (w_oz w) /\ r_mag (d_out v) = Sc (w_omag w).
(** The same outcome of [set_ocb]; the radii are compared only where they are computed. *)
Definition same_result (r1 r2 : res (vel * bnd)) : Prop :=
  match r1, r2 with
  | Ok (a, b), Ok (c, d) => b = d /\ location a = location c /\ ScalingSpec.components a = ScalingSpec.components c /\ coordinates a = coordinates c /\
      normalised a = normalised c /\ w_omag a = w_omag c /\ (has_all_coords a -> radii a = radii c)
  | Err e, Err e' => e = e'
  | _, _ => False
  end.
(** Nothing computed yet. *)
Definition no_result (w : vel) : Prop := normalised w = (None, None, None) /\ w_omag w = None.
(** The vector [w] as a new object. *)
Definition anew (w : vel) : vel := fresh (w_lat w) (w_lt w) (w_n w) (w_e w) (w_z w).

Lemma finish1_radii b sf rc v u s : finish1 b sf rc (put_radii v u s) = finish1 b sf rc v. Proof. reflexivity. Qed.
Lemma recomputed b j own arg w : no_result w -> no_coords [w] = true -> same_result (set_ocb b j own arg w) (set_ocb b j own arg (anew w)).
Proof.
  intros (N & M) C. unfold set_ocb. destruct (getE (recs b) (rind b)) as [r0 | e0]; cbn [bind]; [| exact eq_refl]. cbv zeta.
  rewrite C. replace (no_coords [anew w]) with true by reflexivity.
  destruct (coords_of_spec b j w) as (ol & om & rc & E & F). destruct (coords_of_spec b j (anew w)) as (ol2 & om2 & rc2 & E2 & F2).
  cbn [anew fresh w_lat w_lt] in E2. rewrite E in E2. injection E2 as <- <- <-. rewrite F, F2. cbn [bind].
  unfold normalised in N. injection N as N1 N2 N3.
  assert (NC : no_coords [put_coord w (w_lat w) ol om rc] = no_coords [put_coord (anew w) (w_lat (anew w)) ol om rc]) by reflexivity.
  rewrite <- NC. destruct (no_coords [put_coord w (w_lat w) ol om rc]) eqn:D.
  - cbn [same_result]. unfold location, ScalingSpec.components, coordinates, normalised. cbn [put_coord anew fresh w_lat w_lt w_n w_e w_z w_olat w_omlt w_rc w_on w_oe w_oz w_omag].
    rewrite N1, N2, N3, M. do 6 (split; [reflexivity |]). intros H. apply has_all_no in H. unfold no_coords in *. cbn in *. congruence.
  - destruct (getE (recs b) j) as [q | e]; cbn [bind]; [| reflexivity].
    set (u := put_coord w (w_lat w) ol om rc) in *. set (u' := put_coord (anew w) (w_lat (anew w)) ol om rc) in *.
    assert (G : finish1 b (choose_sf own arg) q u = finish1 b (choose_sf own arg) q u').
    { rewrite <- (finish1_radii b _ q u None None), <- (finish1_radii b _ q u' None None).
      f_equal. subst u u'. destruct w. cbn in *. subst. reflexivity. }
    rewrite G. destruct (finish1 b (choose_sf own arg) q u') as [v2 | e]; cbn [bind same_result]; [repeat split | reflexivity].
Qed.

Theorem C136_new_index_partial :
  (* missing: a vector that has coordinates keeps those of the old record
     (C136_old_coordinates_refuted) *)
  forall v w j, holds v w ->
    (* without coordinates, as an object made with the new index *)
    (~ has_all_coords w -> exists v' w', do_assign (OcbInd (Sc j)) v = (v', None) /\ o_ind v' = Sc j /\ holds v' w' /\ anew w' = anew w /\
       forall b own arg, same_result (set_ocb b j own arg w') (set_ocb b j own arg (anew w))) /\
    (* and with coordinates, once one of them is unset *)
    (forall a, a = OcbLat (Sc None) \/ a = OcbMlt (Sc None) \/ a = RCorr (Sc None) ->
       exists v' w', run [OcbInd (Sc j); a] v = Ok v' /\ o_ind v' = Sc j /\ holds v' w' /\ anew w' = anew w /\
       forall b own arg, same_result (set_ocb b j own arg w') (set_ocb b j own arg (anew w))).
Proof.
  intros v w j H.
  set (w1 := mkVel (w_lat w) (w_lt w) (w_n w) (w_e w) (w_z w) (w_olat w) (w_omlt w) (w_rc w) (w_unr w) (w_scr w) None None None None).
  destruct v as [di oi la lt h n e z mg ol om rc vs out].
  destruct H as (H1 & H2 & H3 & H4 & H5 & H6 & H7 & H8 & H9 & H10 & H11 & _). cbn in H1, H2, H3, H4, H5, H6, H7, H8, H9, H10, H11. subst.
  destruct di as [i |]; [| destruct H1]. clear H1 H2.
  assert (E : do_assign (OcbInd (Sc j)) (mkVd (Sc i) oi (Sc (w_lat w)) (Sc (w_lt w)) h (Sc (w_n w)) (Sc (w_e w)) (Sc (w_z w)) mg (Sc (w_olat w)) (Sc (w_omlt w)) (Sc (w_rc w)) [] out)
    = (mkVd (Sc i) (Sc j) (Sc (w_lat w)) (Sc (w_lt w)) h (Sc (w_n w)) (Sc (w_e w)) (Sc (w_z w)) mg (Sc (w_olat w)) (Sc (w_omlt w)) (Sc (w_rc w)) [] (cleared []), None)) by reflexivity.
  split.
  - intros U. eexists _, w1. split; [exact E |]. split; [reflexivity |]. split; [cbn; repeat split |]. split; [reflexivity |].
    intros b own arg. apply (recomputed b j own arg w1); [split; reflexivity |].
    destruct (no_coords [w1]) eqn:C; [reflexivity |]. exfalso. apply U. apply has_all_no. exact C.
  - intros a A. cbn [run]. rewrite E.
    destruct A as [-> | [-> | ->]]; cbn [do_assign sized full shape_of o_ind with_coords o_lat o_mlt o_rc d_ind d_lat d_lt d_h d_n d_e d_z d_mag d_vs d_out].
    + eexists. exists (mkVel (w_lat w) (w_lt w) (w_n w) (w_e w) (w_z w) None (w_omlt w) (w_rc w) (w_unr w) (w_scr w) None None None None).
      split; [reflexivity |]. split; [reflexivity |]. split; [cbn; repeat split |]. split; [reflexivity |].
      intros b own arg. refine (recomputed b j own arg (mkVel _ _ _ _ _ _ _ _ _ _ _ _ _ _) _ _); [split; reflexivity | reflexivity].
    + eexists. exists (mkVel (w_lat w) (w_lt w) (w_n w) (w_e w) (w_z w) (w_olat w) None (w_rc w) (w_unr w) (w_scr w) None None None None).
      split; [reflexivity |]. split; [reflexivity |]. split; [cbn; repeat split |]. split; [reflexivity |].
      intros b own arg. refine (recomputed b j own arg (mkVel _ _ _ _ _ _ _ _ _ _ _ _ _ _) _ _); [split; reflexivity |]. unfold no_coords. cbn. destruct (w_olat w); reflexivity.
    + eexists. exists (mkVel (w_lat w) (w_lt w) (w_n w) (w_e w) (w_z w) (w_olat w) (w_omlt w) None (w_unr w) (w_scr w) None None None None).
      split; [reflexivity |]. split; [reflexivity |]. split; [cbn; repeat split |]. split; [reflexivity |].
      intros b own arg. refine (recomputed b j own arg (mkVel _ _ _ _ _ _ _ _ _ _ _ _ _ _) _ _); [split; reflexivity |]. unfold no_coords. cbn. destruct (w_olat w), (w_omlt w); reflexivity.
Qed.

Theorem C136_old_coordinates :
  (* what happens instead: the coordinates of the old record stay, whatever the boundary *)
  forall v w j v' b own arg w' w2 b2, holds v w -> has_all_coords w -> do_assign (OcbInd (Sc j)) v = (v', None) -> holds v' w' ->
    set_ocb b j own arg w' = Ok (w2, b2) -> coordinates w2 = coordinates w /\ b2 = b.
Proof.
  intros v w j v' b own arg w' w2 b2 H C E H' S.
  assert (CC : coordinates w' = coordinates w).
  { destruct v as [di oi la lt h n e z mg ol om rc vs out].
    destruct H as (H1 & H2 & H3 & H4 & H5 & H6 & H7 & H8 & H9 & H10 & H11 & _). cbn in H1, H2, H3, H4, H5, H6, H7, H8, H9, H10, H11. subst.
    destruct di as [i |]; [| destruct H1]. cbn in E. injection E as <-.
    destruct H' as (_ & _ & _ & _ & _ & _ & _ & _ & K9 & K10 & K11 & _). cbn in K9, K10, K11. unfold coordinates. congruence. }
  assert (C' : has_all_coords w') by (unfold has_all_coords in *; unfold coordinates in CC; injection CC as -> -> ->; exact C).
  destruct (C88_coordinates_from_boundary_partial _ _ _ _ _ _ _ S) as (_ & K). destruct (K C') as (-> & ->). auto.
Qed.

Definition rec2 : rec := mkRec 38 4 0 (fun m => fmap (fun _ => 2) m).
Definition bnd12 : bnd := mkBnd 1 74 [rec1; rec2] 0.
Lemma loaded12 : loaded_at bnd12. Proof. unfold loaded_at. cbn. lia. Qed.
Lemma edge_usable12 : usable bnd12 0 on_edge rec1 2.
Proof. unfold usable. cbn. repeat split; try lia; try lra; auto. Qed.
(** An object for the vector [d] with boundary index [i]. *)
Definition object (d : datum) (i : Z) : res vdata :=
  construct (Sc 0%Z) (Sc i) (Sc (Some (g_lat d))) (Sc (Some (g_lt d))) (Sc (Some 350)) (Sc (Some (g_n d))) (Sc (Some (g_e d))) (Sc (Some (g_z d))) (Sc None) (Sc None) (Sc None) (Sc None).
Lemma object_holds d i : exists v, object d i = Ok v /\ holds v (given d).
Proof. eexists. split; [reflexivity |]. repeat split. Qed.

Theorem C136_old_coordinates_refuted :
  (* one boundary with two records; set_ocb with the first, ocb_ind = 1, set_ocb again *)
  exists b d v1 b1 w2 w3 b3 ol2 om2 rc2 after,
    set_ocb b 0 None None (given d) = Ok (v1, b1) /\ has_all_coords v1 /\
    coordinates w2 = coordinates v1 /\ location w2 = location v1 /\ ScalingSpec.components w2 = ScalingSpec.components v1 /\ no_result w2 /\
    set_ocb b1 1 None None w2 = Ok (w3, b3) /\ w_olat w3 = Some 74 /\
    normal_coord (with_rind b1 1) (sc (Some (g_lat d))) (sc (Some (g_lt d))) = Ok (out true [Some ol2], om2, rc2, after) /\ 74 < ol2.
Proof.
  destruct (scalar_spec bnd12 0 on_edge rec1 2 loaded12 edge_usable12) as (v1 & E1 & D).
  destruct D as (rc & c & ol & om & U & N & FI). cbn [fst snd] in *.
  assert (rc = rec1 /\ c = 2) as [-> ->].
  { destruct U as (_ & X & _ & Y & _). cbn in X. injection X as <-. cbn in Y. injection Y as <-. auto. }
  destruct (C27_boundary_to_reference bnd12 rec1 66 0 2) as (ol1 & om1 & af1 & N1 & Q1).
  { split; [now left|cbn; lra]. } { split; [cbn; lia|reflexivity]. } { unfold in_hemisphere. cbn. lra. } { reflexivity. } { cbn. lra. }
  destruct (C27_boundary_to_reference (with_rind bnd12 1) rec2 66 0 2) as (ol2 & om2 & af2 & N2 & Q2).
  { split; [now left|cbn; lra]. } { split; [cbn; lia|reflexivity]. } { unfold in_hemisphere. cbn. lra. } { reflexivity. } { cbn. lra. }
  cbv zeta in Q1, Q2. destruct Q1 as ((Q1 & _) & _). destruct Q2 as (_ & (Q2 & _) & _). specialize (Q1 edge_dist).
  assert (DI : dist (point (colat (CoordModel.hemi (with_rind bnd12 1)) 66) 0) (centre rec2) < rr rec2 + 2).
  { change (centre rec2) with (centre rec1). change (CoordModel.hemi (with_rind bnd12 1)) with 1%Z. rewrite edge_dist. cbn. lra. }
  specialize (Q2 DI). cbn in Q2.
  change (at_rec bnd12 0) with bnd12 in N. change (g_lat on_edge) with 66 in N. change (g_lt on_edge) with 0 in N. rewrite N1 in N. injection N as <- <- _.
  cbn [blat bnd12] in Q1. subst ol1.
  destruct FI as (n & e & z & B & V).
  assert (C1 : coordinates v1 = (Some 74, Some om1, Some 2)) by (rewrite V; reflexivity).
  assert (LOC : location v1 = (Some 66, Some 0)) by (rewrite V; reflexivity).
  assert (CMP : ScalingSpec.components v1 = (Some 1, Some 0, Some 0)) by (rewrite V; reflexivity).
  set (w2 := mkVel (Some 66) (Some 0) (Some 1) (Some 0) (Some 0) (Some 74) (Some om1) (Some 2) (w_unr v1) (w_scr v1) None None None None).
  assert (GV : good_vel w2). { exists 66, 0, 1, 0, 0. repeat (split; [reflexivity|]). lra. }
  destruct (work_exists rec2 w2) as (k & K1 & K2 & K3); [cbn; lra|exact GV|].
  destruct (adjust_total k K3) as [r A]; [rewrite K2; discriminate | rewrite K2; discriminate |].
  destruct (finish1_spec bnd12 k r K3 A) as (w3 & F1 & F2). rewrite K1, K2 in F1, F2.
  eexists bnd12, on_edge, v1, _, w2, w3, _, _, _, _, _.
  split; [exact E1 |]. split; [unfold has_all_coords; unfold coordinates in C1; injection C1 as -> -> ->; repeat split; discriminate |].
  split; [rewrite C1; reflexivity |]. split; [rewrite LOC; reflexivity |]. split; [rewrite CMP; reflexivity |]. split; [split; reflexivity |].
  split; [| split; [| split; [exact N2 | lra]]].
  - unfold set_ocb. change (getE (recs (with_rind bnd12 0)) (rind (with_rind bnd12 0))) with (Ok rec1). cbn [bind]. cbv zeta.
    replace (no_coords [w2]) with false by reflexivity. cbn [bind]. replace (no_coords [w2]) with false by reflexivity.
    change (getE (recs (with_rind bnd12 0)) 1) with (Ok rec2). cbn [bind choose_sf]. change (finish1 (with_rind bnd12 0) None rec2 w2) with (finish1 bnd12 None rec2 w2). rewrite F1. reflexivity.
  - destruct F2 as (n2 & e2 & z2 & _ & V2). rewrite V2. reflexivity.
Qed.
Example C136_case : exists v, object on_edge 0 = Ok v /\ holds v (given on_edge) /\ ~ has_all_coords (given on_edge) /\
  exists v1 b1, set_ocb bnd12 1 None None (anew (given on_edge)) = Ok (v1, b1) /\ has_all_coords v1.
Proof.
  destruct (object_holds on_edge 0) as (v & E & H). exists v. split; [exact E |]. split; [exact H |]. split; [intros (X & _); now apply X |].
  assert (U : usable bnd12 1 on_edge rec2 2) by (unfold usable; cbn; repeat split; try lia; try lra; auto).
  destruct (scalar_spec bnd12 1 on_edge rec2 2 loaded12 U) as (v1 & E1 & D). exists v1. eexists. split; [exact E1 |].
  destruct D as (rc & c & ol & om & _ & _ & (n & e & z & _ & V)). rewrite V. repeat split; discriminate.
Qed.
Print Assumptions C136_new_index_partial.
Print Assumptions C136_old_coordinates.
Print Assumptions C136_old_coordinates_refuted.
