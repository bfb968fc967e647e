(** C148-C150: vectors normalised with a DualBoundary. *)
From Coq Require Import Reals ZArith List Bool Lia Lra.
From Verif Require Import PyBase RangeModel RangeSpec RangeProofs CoordModel CoordSpec CoordProofs CoordProofs2 PropertiesCoord
  DualCoordModel DualCoordSpec DualCoordProofs DualCoordProofs2 PropertiesDualCoord
  VectorModel ScalingModel ScalingSpec ScalingProofs ScalingProofs2 ScalingProofs3 ScalingProofs4 ScalingProofs5
  VdualModel VdualSpec VdualProofs VdualProofs2 VdualProofs3.
Import ListNotations.
Open Scope R_scope.

Lemma alike_pairs d d' : alike d d' -> same_pairs d d'.
Proof. intros (i & j & r & os & es & -> & _). unfold same_pairs. cbn. auto 12. Qed.

(** ** C148 *)
Theorem C148_as_open_closed_partial :
  (* missing: the vectors poleward of the open-closed boundary on their meridian but
     outside its circle (C148_outside_circle, C148_undefined_refuted) *)
  (forall d k io ie orc erc w ro re own arg,
     dual_loaded d -> dual_config d -> pair_at d k io ie orc erc -> sited d orc erc w ro re -> in_region d orc w ro ->
     exists d' v u bl, set_ocb_dual d k own arg (given w) = (d', Ok v) /\
       set_ocb (with_rind (d_o d) io) io own arg (given w) = Ok (u, with_rind (d_o d) io) /\
       same_but_latitude v u /\ w_olat v = Some bl /\ dual_latitude d k w bl /\
       d_rec d' = k /\ d_o d' = with_rind (d_o d) io /\ d_e d' = with_rind (d_e d) ie) /\
  (forall d k io own arg ws, dual_loaded d -> dual_config d -> ws <> [] -> Forall (fun w => fit d (k, io, w)) ws ->
     exists d' vs us, set_ocb_dual_array d k own arg (map given ws) = (d', Ok vs) /\
       set_ocb_array (with_rind (d_o d) io) io own arg (map given ws) = Ok (us, with_rind (d_o d) io) /\
       length vs = length ws /\ length us = length ws /\
       forall i w v u, nth_error ws i = Some w -> nth_error vs i = Some v -> nth_error us i = Some u ->
         same_but_latitude v u /\ exists bl, w_olat v = Some bl /\ dual_latitude d k w bl) /\
  (* one pair and record of the open-closed boundary for each vector *)
  (forall d own arg (qs : list (Z * Z * datum)), dual_config d -> qs <> [] -> Forall (fit d) qs ->
     exists d' vs us b', set_ocb_dual_matched d (map (fun q => fst (fst q)) qs) own arg (map (fun q => given (snd q)) qs) = (d', Ok vs) /\
       set_ocb_matched (d_o d) (map (fun q => snd (fst q)) qs) own arg (map (fun q => given (snd q)) qs) = Ok (us, b') /\
       length vs = length qs /\ length us = length qs /\
       forall i q v u, nth_error qs i = Some q -> nth_error vs i = Some v -> nth_error us i = Some u ->
         same_but_latitude v u /\ exists bl, w_olat v = Some bl /\ dual_latitude d (fst (fst q)) (snd q) bl).
Proof.
  split; [|split].
  - intros d k io ie orc erc w ro re own arg L DC P S REG.
    destruct (dual_scalar d k io ie orc erc w ro re own arg L DC P S REG) as (d' & u & bl & c & E & F & _ & (os & es & ->) & DL & _).
    exists (put_stores (moved d k io ie) os es), (relat u (Some bl)), u, bl. split; [exact E|]. split; [exact F|].
    split; [apply relat_same|]. split; [reflexivity|]. split; [exact DL|]. cbn. auto.
  - intros d k io own arg ws L DC NE F.
    destruct (dual_array d k io own arg ws L DC NE F) as (d' & vs & us & E1 & E2 & L1 & L2 & Q & _).
    exists d', vs, us. split; [exact E1|]. split; [exact E2|]. split; [exact L1|]. split; [exact L2|].
    intros i w v u I1 I2 I3. destruct (Q i w v u I1 I2 I3) as (bl & -> & DL). split; [apply relat_same|]. exists bl. split; [reflexivity|exact DL].
  - intros d own arg qs DC NE F.
    destruct (dual_matched d own arg qs DC NE F) as (d' & vs & us & b' & E1 & E2 & L1 & L2 & Q & _).
    exists d', vs, us, b'. split; [exact E1|]. split; [exact E2|]. split; [exact L1|]. split; [exact L2|].
    intros i w v u I1 I2 I3. destruct (Q i w v u I1 I2 I3) as (bl & -> & DL). split; [apply relat_same|]. exists bl. split; [reflexivity|exact DL].
Qed.

(** Outside the circle although poleward of the boundary: nothing is normalised, while the
    open-closed boundary alone gives radii. *)
Theorem C148_outside_circle :
  forall d k io ie orc erc w ro re own arg,
    dual_loaded d -> dual_config d -> pair_at d k io ie orc erc -> sited d orc erc w ro re -> misses_circle d orc w ro ->
    exists d' v u r s, set_ocb_dual d k own arg (given w) = (d', Ok v) /\ w_olat v = None /\
      normalised v = normalised (given w) /\ w_omag v = w_omag (given w) /\ ScalingSpec.radii v = (None, None) /\
      set_ocb (with_rind (d_o d) io) io own arg (given w) = Ok (u, with_rind (d_o d) io) /\ ScalingSpec.radii u = (Some r, Some s).
Proof.
  intros d k io ie orc erc w ro re own arg L DC P S M.
  destruct (miss_coords _ _ _ _ _ _ _ _ _ P DC S M) as (d' & m & c & E & _).
  destruct (site_usable _ _ _ _ _ _ _ _ _ P DC S) as (c' & U & R0). destruct (loaded_time d L) as [i0 T].
  destruct (usable_good _ _ _ _ _ U) as (G & R & E3). destruct (usable_coords _ _ _ _ _ U) as (ol & om & NC & CO & _).
  set (v1 := put_coord (given w) (Some (g_lat w)) (Some ol) (Some om) (Some c')) in *.
  assert (G' : good_vel v1) by now apply good_put.
  destruct (finish1_total (d_o d) (choose_sf own arg) orc v1 c' R G' eq_refl) as (u & F & R1 & R2).
  exists d', (put_coord (given w) (Some (g_lat w)) None m c), u, (Some (rr orc + c')), (Some (90 - Rabs (blat (d_o d)))).
  split; [|split; [reflexivity|split; [reflexivity|split; [reflexivity|split; [reflexivity|split]]]]].
  - unfold set_ocb_dual. rewrite T. assert (no_coords [given w] = true) as -> by reflexivity. rewrite E. reflexivity.
  - unfold set_ocb. cbn [with_rind recs rind]. rewrite E3. cbn [bind]. cbv zeta. assert (no_coords [given w] = true) as -> by reflexivity.
    change (coords_of (with_rind (d_o d) io) io (given w)) with (coords_of (d_o d) io (given w)). rewrite CO. cbn [bind].
    fold v1. assert (no_coords [v1] = false) as -> by reflexivity.
    match goal with |- context [finish1 ?b _ _ _] => change (finish1 b) with (finish1 (d_o d)) end. rewrite F. reflexivity.
  - unfold ScalingSpec.radii. rewrite R1, R2. reflexivity.
Qed.

(** The open-closed boundary, 5 degrees wide and centred 10 degrees from the pole, lies at
    colatitude 15; a vector at colatitude 2 on that meridian is outside the circle. *)
Definition orec5 : rec := mkRec 5 10 0 (fun m => fmap (fun _ => 0) m).
Definition dual5 : dualc := mkDual (mkBnd 1 74 [orec5] 0) (mkBnd 1 64 [erec1] 0) [0%Z] [0%Z] 1 0 None None.
Definition polar : datum := mkDatum 88 0 1 0 0.

Lemma dual5_ok : dual_loaded dual5 /\ dual_config dual5 /\ pair_at dual5 0 0 0 orec5 erec1 /\ sited dual5 orec5 erec1 polar 15 28 /\
  misses_circle dual5 orec5 polar 15.
Proof.
  split; [unfold dual_loaded; cbn; lia|]. split; [unfold dual_config; cbn; repeat split; (now left) || lra|].
  split; [constructor; cbn; try reflexivity; try exact I; try lia; (split; [lia|reflexivity])|]. split.
  - constructor; cbn.
    + lra.
    + left. lra.
    + exists 0. split; [reflexivity|cbn; lra].
    + replace 15 with (rcent orec5 + (rr orec5 + 0)) by (cbn; lra). apply boundary_midnight; cbn; try reflexivity; lra.
    + replace 28 with (rcent erec1 + (rr erec1 + 1)) by (cbn; lra). apply boundary_midnight; cbn; try reflexivity; lra.
    + lra.
    + lra.
  - split; [unfold colat; cbn; lra|]. exists 0. split; [reflexivity|].
    assert (D : dist (point (colat 1 88) 0) (centre orec5) = 8).
    { destruct (meets_midnight orec5 8 2 eq_refl) as [_ Q]. destruct Q as [_ Q].
      - split; [lra|]. cbn. rewrite (Rabs_pos_eq 8), (Rabs_left (2 - 10)); lra.
      - replace (colat 1 88) with 2 by (unfold colat; lra). rewrite (Rabs_pos_eq 8) in Q by lra. exact Q. }
    change (hemi (d_o dual5)) with 1%Z. change (g_lat polar) with 88. change (g_lt polar) with 0. rewrite D.
    change (blat (d_o dual5)) with 74. change (rr orec5) with 5. rewrite (Rabs_pos_eq 74) by lra. lra.
Qed.

Theorem C148_undefined_refuted :
  exists d k io ie orc erc w ro re d' v u r s,
    dual_loaded d /\ dual_config d /\ pair_at d k io ie orc erc /\ sited d orc erc w ro re /\
    set_ocb_dual d k None None (given w) = (d', Ok v) /\ ScalingSpec.radii v = (None, None) /\ w_olat v = None /\
    set_ocb (with_rind (d_o d) io) io None None (given w) = Ok (u, with_rind (d_o d) io) /\ ScalingSpec.radii u = (Some r, Some s).
Proof.
  destruct dual5_ok as (L & DC & P & S & M).
  destruct (C148_outside_circle dual5 0 0 0 orec5 erec1 polar 15 28 None None L DC P S M) as (d' & v & u & r & s & E & O & _ & _ & RV & F & RU).
  exists dual5, 0%Z, 0%Z, 0%Z, orec5, erec1, polar, 15, 28, d', v, u, r, s. auto 12.
Qed.

(** A number that is no pair of the dual boundary: nothing happens to the vector. *)
Theorem C148_no_pair :
  forall d k own arg w, dual_loaded d -> (k < 0 \/ d_n d <= k)%Z ->
    exists d', set_ocb_dual d k own arg (given w) = (d', Ok (given w)) /\ d_rec d' = k.
Proof.
  intros d k own arg w L K. destruct (loaded_time d L) as [i0 T]. unfold set_ocb_dual. rewrite T.
  assert (no_coords [given w] = true) as -> by reflexivity. unfold coords_of_dual, dual_coords, set_rec. cbv zeta.
  destruct K as [K|K].
  - assert (X : (k <? 0)%Z = true) by now apply Z.ltb_lt. rewrite X. unfold dual_normal. cbn [spread sc0 is0d isint el d_rec d_n andb]. rewrite X. cbn [orb].
    eexists. split; reflexivity.
  - assert (X : (d_n d <=? k)%Z = true) by now apply Z.leb_le. rewrite X. destruct (k <? 0)%Z eqn:Y.
    + unfold dual_normal. cbn [spread sc0 is0d isint el d_rec d_n andb]. rewrite Y. cbn [orb]. eexists. split; reflexivity.
    + unfold dual_normal. cbn [spread sc0 is0d isint el d_rec d_n andb]. rewrite X, orb_true_r. eexists. split; reflexivity.
Qed.

(** The dual boundary [dual1] at midnight: a vector between the boundaries. *)
Definition auroral : datum := mkDatum 64 0 1 0 0.
Definition capped : datum := mkDatum 80 0 1 0 0.
Lemma dual1_fit lat n e z : 0 < lat < 66 -> let w := mkDatum lat 0 n e z in
  dual_loaded dual1 /\ pair_at dual1 0 0 0 rec1 erec1 /\ sited dual1 rec1 erec1 w 24 28 /\ in_region dual1 rec1 w 24.
Proof.
  intros H w. destruct dual1_ok as (_ & _ & B1 & B2 & MO & RP).
  split; [unfold dual_loaded; cbn; lia|]. split; [constructor; cbn; try reflexivity; try exact I; try lia; (split; [lia|reflexivity])|].
  split; [constructor; cbn; try assumption; lra|]. right. unfold colat. cbn. lra.
Qed.
Lemma capped_fit : dual_loaded dual1 /\ pair_at dual1 0 0 0 rec1 erec1 /\ sited dual1 rec1 erec1 capped 24 28 /\ in_cap dual1 rec1 capped 24.
Proof.
  destruct dual1_ok as (_ & _ & B1 & B2 & MO & RP).
  split; [unfold dual_loaded; cbn; lia|]. split; [constructor; cbn; try reflexivity; try exact I; try lia; (split; [lia|reflexivity])|].
  split; [constructor; cbn; try assumption; lra|]. split; [unfold colat; cbn; lra|].
  exists 2. split; [reflexivity|]. destruct (meets_midnight rec1 6 10 eq_refl) as [_ Q]. destruct Q as [_ Q].
  { split; [lra|]. cbn. rewrite !Rabs_pos_eq; lra. }
  cbn [g_lat g_lt capped hemi d_o dual1]. replace (colat 1 80) with 10 by (unfold colat; lra). rewrite Q. rewrite Rabs_pos_eq by lra. cbn. lra.
Qed.

Example C148_case : exists d' v u,
  set_ocb_dual dual1 0 None None (given auroral) = (d', Ok v) /\ w_olat v = Some 69 /\
  set_ocb (with_rind (d_o dual1) 0) 0 None None (given auroral) = Ok (u, with_rind (d_o dual1) 0) /\ same_but_latitude v u.
Proof.
  destruct (dual1_fit 64 1 0 0 ltac:(lra)) as (L & P & S & R). destruct dual1_ok as (_ & DC & _).
  destruct C148_as_open_closed_partial as [Q _].
  destruct (Q dual1 0%Z 0%Z 0%Z rec1 erec1 auroral 24 28 None None L DC P S R) as (d' & v & u & bl & E & F & SB & OB & (d1 & d2 & BL & M & LL & C & SR & DN & EB) & _).
  exists d', v, u. split; [exact E|]. split; [|split; [exact F|exact SB]]. rewrite OB.
  destruct C37_regions_case as (e' & BL' & M' & L' & C' & DN' & EB').
  injection SR as <-. change (mkDual _ _ _ _ _ _ _ _) with dual1 in DN. change (g_lat auroral) with 64 in DN. change (g_lt auroral) with 0 in DN.
  rewrite DN' in DN. injection DN as _ <- _ _ _. rewrite EB' in EB. injection EB as <-. reflexivity.
Qed.
Print Assumptions C148_as_open_closed_partial.
Print Assumptions C148_outside_circle.
Print Assumptions C148_undefined_refuted.
Print Assumptions C148_no_pair.

(** ** C149 *)
Theorem C149_radii_partial :
  (* missing: vectors equatorward of the open-closed boundary (C149_other_regions_refuted) *)
  forall d k io ie orc erc w ro re own arg,
    dual_loaded d -> dual_config d -> pair_at d k io ie orc erc -> sited d orc erc w ro re -> in_cap d orc w ro ->
    exists d' v d2 r s, set_ocb_dual d k own arg (given w) = (d', Ok v) /\
      ScalingSpec.radii v = (Some (Some r), Some (Some s)) /\
      dual_calc_r d' [w_olat v] [Some (g_lt w)] [w_rc v] false = (d2, Ok ([Some s], [Some r])).
Proof.
  intros d k io ie orc erc w ro re own arg L DC P S CAP.
  destruct (dual_scalar d k io ie orc erc w ro re own arg L DC P S (or_introl CAP)) as (d' & u & bl & c & E & F & PD & (os & es & ->) & DL & RF & RU & _ & CB & RCU & _).
  specialize (CB CAP). set (d' := put_stores (moved d k io ie) os es) in *.
  assert (DC' : dual_config d') by exact DC. destruct S as [SL MO RP Bo Be R90 RC].
  destruct (C42_region_radii d' orc erc [Some bl] [Some (g_lt w)] [Some c] 1 false 0 bl (g_lt w) c ro re PD DC' eq_refl eq_refl eq_refl eq_refl eq_refl eq_refl MO Bo Be R90)
    as (d2 & SS & UU & EC & L1 & L2 & Q1 & _). cbv zeta in Q1.
  change (blat (d_o d')) with (blat (d_o d)) in Q1. destruct Q1 as [Q1 Q2].
  { destruct DC as (Hh & _ & E0 & EO & _). rewrite (abs_h (hemi (d_o d)) (blat (d_o d))), (abs_h (hemi (d_o d)) bl) by (exact Hh || lra). exact CB. }
  exists d', (relat u (Some bl)), d2, (rr orc + c), (90 - Rabs (blat (d_o d))). split; [exact E|]. split; [exact RU|].
  cbn [relat w_olat w_rc]. rewrite RCU. etransitivity; [exact EC|]. rewrite (one_elem _ _ L1 Q1), (one_elem _ _ L2 Q2). reflexivity.
Qed.

(** Between the boundaries and equatorward of both, [set_ocb] still uses the radii of the
    polar cap. *)
Theorem C149_other_regions_refuted :
  forall d k io ie orc erc w ro re own arg,
    dual_loaded d -> dual_config d -> pair_at d k io ie orc erc -> sited d orc erc w ro re ->
    ro < colat (hemi (d_o d)) (g_lat w) ->
    exists d' v d2 c, set_ocb_dual d k own arg (given w) = (d', Ok v) /\
      let x := colat (hemi (d_o d)) (g_lat w) in let obl := Rabs (blat (d_o d)) in let ebl := Rabs (blat (d_e d)) in
      rfun orc (Some (g_lt w)) = Some c /\ ScalingSpec.radii v = (Some (Some (rr orc + c)), Some (Some (90 - obl))) /\
      dual_calc_r d' [w_olat v] [Some (g_lt w)] [w_rc v] false =
        (d2, Ok (if Rle_dec x re then ([Some (obl - ebl)], [Some (re - ro)]) else ([Some ebl], [Some (90 - re)]))).
Proof.
  intros d k io ie orc erc w ro re own arg L DC P S OUT.
  destruct (dual_scalar d k io ie orc erc w ro re own arg L DC P S (or_intror OUT)) as (d' & u & bl & c & E & F & PD & (os & es & ->) & DL & RF & RU & _ & _ & RCU & EB).
  set (d' := put_stores (moved d k io ie) os es) in *.
  assert (DC' : dual_config d') by exact DC. destruct S as [SL MO RP Bo Be R90 RC].
  destruct (C42_region_radii d' orc erc [Some bl] [Some (g_lt w)] [Some c] 1 false 0 bl (g_lt w) c ro re PD DC' eq_refl eq_refl eq_refl eq_refl eq_refl eq_refl MO Bo Be R90)
    as (d2 & SS & UU & EC & L1 & L2 & _ & Q2 & Q3). cbv zeta in Q2, Q3.
  change (blat (d_o d')) with (blat (d_o d)) in *. change (blat (d_e d')) with (blat (d_e d)) in *.
  destruct DC as (Hh & _ & E0 & EO & O90). set (h := hemi (d_o d)) in *.
  exists d', (relat u (Some bl)), d2, c. split; [exact E|]. cbv zeta. split; [exact RF|]. split; [exact RU|].
  cbn [relat w_olat w_rc]. rewrite RCU. etransitivity; [exact EC|].
  assert (H1 : IZR h * IZR h = 1) by (destruct Hh as [-> | ->]; lra).
  rewrite (abs_h h (blat (d_o d))), (abs_h h (blat (d_e d))) in * by (exact Hh || lra).
  unfold lat_in in EB. fold h in EB. destruct (Rle_dec (colat h (g_lat w)) ro) as [X|_]; [exfalso; clear - X OUT; lra|].
  unfold colat in *. destruct (Rle_dec (90 - IZR h * g_lat w) re) as [X|X].
  - assert (HB : IZR h * bl = IZR h * blat (d_o d) - (90 - ro - IZR h * g_lat w) * (IZR h * blat (d_o d) - IZR h * blat (d_e d)) / (re - ro)).
    { rewrite EB. destruct Hh as [-> | ->]; field; lra. }
    set (O := IZR h * blat (d_o d)) in *. set (B := IZR h * blat (d_e d)) in *. set (t := (90 - ro - IZR h * g_lat w) / (re - ro)).
    assert (T : 0 < t <= 1).
    { unfold t. split; [apply Rdiv_lt_0_compat; lra|]. apply (Rmult_le_reg_r (re - ro)); [lra|]. unfold Rdiv. rewrite Rmult_assoc, Rinv_l by lra. lra. }
    assert (HB' : IZR h * bl = O - t * (O - B)) by (rewrite HB; unfold t; field; lra).
    assert (AB : Rabs bl = IZR h * bl) by (apply abs_h; [exact Hh|]; rewrite HB'; nra).
    destruct Q2 as [Q21 Q22]; [rewrite AB, HB'; nra|]. rewrite (one_elem _ _ L1 Q21), (one_elem _ _ L2 Q22). reflexivity.
  - assert (HB : IZR h * bl = IZR h * blat (d_e d) - (90 - re - IZR h * g_lat w) * (IZR h * blat (d_e d)) / (90 - re)).
    { rewrite EB. destruct Hh as [-> | ->]; field; lra. }
    set (O := IZR h * blat (d_o d)) in *. set (B := IZR h * blat (d_e d)) in *. set (t := (IZR h * g_lat w) / (90 - re)).
    assert (T : 0 < t < 1).
    { unfold t. split; [apply Rdiv_lt_0_compat; lra|]. apply (Rmult_lt_reg_r (90 - re)); [lra|]. unfold Rdiv. rewrite Rmult_assoc, Rinv_l by lra. lra. }
    assert (HB' : IZR h * bl = t * B) by (rewrite HB; unfold t; field; lra).
    assert (AB : Rabs bl = IZR h * bl) by (apply abs_h; [exact Hh|]; rewrite HB'; nra).
    destruct Q3 as [Q31 Q32]; [rewrite AB, HB'; nra|]. rewrite (one_elem _ _ L1 Q31), (one_elem _ _ L2 Q32). reflexivity.
Qed.

Example C149_case :
  (exists d' v d2, set_ocb_dual dual1 0 None None (given capped) = (d', Ok v) /\ ScalingSpec.radii v = (Some (Some 20), Some (Some 16)) /\
     dual_calc_r d' [w_olat v] [Some 0] [w_rc v] false = (d2, Ok ([Some 16], [Some 20]))) /\
  (exists d' v d2, set_ocb_dual dual1 0 None None (given auroral) = (d', Ok v) /\ ScalingSpec.radii v = (Some (Some 20), Some (Some 16)) /\
     dual_calc_r d' [w_olat v] [Some 0] [w_rc v] false = (d2, Ok ([Some 10], [Some 4]))).
Proof.
  destruct dual1_ok as (_ & DC & _). split.
  - destruct capped_fit as (L & P & S & R).
    destruct (dual_scalar dual1 0 0 0 rec1 erec1 capped 24 28 None None L DC P S (or_introl R)) as (d0 & u & bl & c & E0 & _ & _ & _ & _ & RF & RU & _).
    destruct (C149_radii_partial dual1 0%Z 0%Z 0%Z rec1 erec1 capped 24 28 None None L DC P S R) as (d' & v & d2 & r & s & E & RV & EC).
    rewrite E0 in E. injection E as <- <-. change (ScalingSpec.radii (relat u (Some bl))) with (ScalingSpec.radii u) in RV. rewrite RU in RV. injection RV as <- <-.
    cbn in RF. injection RF as <-. exists d0, (relat u (Some bl)), d2. split; [exact E0|]. 
    change (ScalingSpec.radii (relat u (Some bl))) with (ScalingSpec.radii u). rewrite RU.
    change (blat (d_o dual1)) with 74 in *. change (rr rec1) with 18 in *. rewrite (Rabs_pos_eq 74) in * by lra. change (g_lt capped) with 0 in EC.
    replace 20 with (18 + 2) by lra. replace 16 with (90 - 74) by lra. split; [reflexivity|exact EC].
  - destruct (dual1_fit 64 1 0 0 ltac:(lra)) as (L & P & S & R).
    destruct (C149_other_regions_refuted dual1 0%Z 0%Z 0%Z rec1 erec1 auroral 24 28 None None L DC P S) as (d' & v & d2 & c & E & RF & RV & EC).
    { unfold colat. cbn. lra. }
    exists d', v, d2. split; [exact E|]. cbn in RF. injection RF as <-. rewrite RV.
    change (blat (d_o dual1)) with 74 in *. change (blat (d_e dual1)) with 64 in *. change (rr rec1) with 18 in *. rewrite (Rabs_pos_eq 74), (Rabs_pos_eq 64) in EC by lra. rewrite (Rabs_pos_eq 74) by lra.
    change (g_lt auroral) with 0 in EC. destruct (Rle_dec _ _) as [X|X]; [|exfalso; apply X; unfold colat; cbn; lra].
    replace 20 with (18 + 2) by lra. replace 16 with (90 - 74) by lra. replace 10 with (74 - 64) by lra. replace 4 with (28 - 24) by lra. split; [reflexivity|exact EC].
Qed.
Print Assumptions C149_radii_partial.
Print Assumptions C149_other_regions_refuted.

(** ** C150 *)
Theorem C150_inputs_kept :
  (forall d k own arg v d' v', dual_wf d -> set_ocb_dual d k own arg v = (d', Ok v') ->
     location v' = location v /\ ScalingSpec.components v' = ScalingSpec.components v /\ same_pairs d d' /\ stores_kept d d') /\
  (forall d k own arg vs d' vs', dual_wf d -> vs <> [] -> set_ocb_dual_array d k own arg vs = (d', Ok vs') ->
     Forall2 (fun v v' => location v' = location v /\ ScalingSpec.components v' = ScalingSpec.components v) vs vs' /\ same_pairs d d' /\ stores_kept d d') /\
  (forall d ks own arg vs d' vs', dual_wf d -> length ks = length vs -> set_ocb_dual_matched d ks own arg vs = (d', Ok vs') ->
     Forall2 (fun v v' => location v' = location v /\ ScalingSpec.components v' = ScalingSpec.components v) vs vs' /\ same_pairs d d' /\ stores_kept d d').
Proof.
  assert (IN : forall v v', same_inputs v v' -> location v' = location v /\ ScalingSpec.components v' = ScalingSpec.components v).
  { intros v v' (A & B & C & D & E). unfold location, ScalingSpec.components. split; congruence. }
  split; [|split].
  - intros d k own arg v d' v' WF H. destruct (scalar_frame _ _ _ _ _ _ _ WF H) as (A & B & C). destruct (IN _ _ C). auto using alike_pairs.
  - intros d k own arg vs d' vs' WF NE H. destruct (array_frame _ _ _ _ _ _ _ WF NE H) as (A & B & C).
    split; [|auto using alike_pairs]. revert C. apply Forall2_imp. exact IN.
  - intros d ks own arg vs d' vs' WF NE H. destruct (matched_frame _ _ _ _ _ _ _ WF NE H) as (A & B & C).
    split; [|auto using alike_pairs]. revert C. apply Forall2_imp. exact IN.
Qed.

(** [dual1] with stored boundaries. *)
Example C150_case : dual_wf dual1s /\
  exists d' v, set_ocb_dual dual1s 0 None None (given auroral) = (d', Ok v) /\ location v = (Some 64, Some 0) /\ ScalingSpec.components v = (Some 1, Some 0, Some 0) /\
    stores_kept dual1s d' /\ d_os dual1s <> None.
Proof.
  assert (P : pair_at dual1s 0 0 0 rec1 erec1) by (constructor; cbn; try reflexivity; try lia; (split; [lia|reflexivity])).
  assert (WF : dual_wf dual1s).
  { split; [|split; [apply (pa_so _ _ _ _ _ _ P)|apply (pa_se _ _ _ _ _ _ P)]]. intros k K. assert (k = 0)%Z as -> by (cbn in K; lia).
    exists 0%Z, 0%Z, rec1, erec1. exact P. }
  split; [exact WF|]. destruct (dual1_fit 64 1 0 0 ltac:(lra)) as (L & _ & S & R). destruct dual1_ok as (_ & DC & _).
  destruct C148_as_open_closed_partial as [Q _].
  assert (S1 : sited dual1s rec1 erec1 auroral 24 28) by (destruct S; constructor; assumption).
  destruct (Q dual1s 0%Z 0%Z 0%Z rec1 erec1 auroral 24 28 None None L DC P S1 R) as (d' & v & u & bl & E & _).
  destruct C150_inputs_kept as [K _]. destruct (K _ _ _ _ _ _ _ WF E) as (A & B & _ & C).
  exists d', v. split; [exact E|]. split; [exact A|]. split; [exact B|]. split; [exact C|]. discriminate.
Qed.
Print Assumptions C150_inputs_kept.
