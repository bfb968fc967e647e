(** C37-C42, C81: coordinates relative to two boundaries. *)
From Coq Require Import Reals ZArith List Bool Lia Lra.
From Verif Require Import PyBase RangeModel RangeSpec RangeProofs PropertiesRange CoordModel CoordSpec CoordProofs CoordProofs2
  PropertiesCoord DualCoordModel DualCoordSpec DualCoordProofs DualCoordProofs2.
Import ListNotations.
Open Scope R_scope.

(** The case used below: OCB [rec1] (circle of radius 20 after correction, centred
    4 degrees from the pole towards midnight), EAB of radius 26 centred 2 degrees
    towards midnight.  At midnight they lie at colatitudes 24 and 28. *)
Definition erec1 : rec := mkRec 25 2 0 (fun m => fmap (fun _ => 1) m).
Definition dual1 : dualc :=
  mkDual (mkBnd 1 74 [rec1] 0) (mkBnd 1 64 [erec1] 0) [0%Z] [0%Z] 1 0 None None.

Lemma meets_midnight rc s rho : phic rc = 0 -> (meets rc 0 s rho <-> 0 <= rho /\ Rabs (rho - rcent rc) = Rabs s).
Proof.
  intros H. unfold meets. assert (E : dist (point rho 0) (centre rc) = Rabs (rho - rcent rc)).
  { unfold dist, point, centre. rewrite H. cbn [fst snd].
    replace (0 * PI / 12) with 0 by field. replace (0 * PI / 180) with 0 by field. rewrite cos_0, sin_0.
    replace ((rho * 1 - rcent rc * 1) ^ 2 + (rho * 0 - rcent rc * 0) ^ 2) with (Rsqr (rho - rcent rc)) by (unfold Rsqr; ring).
    apply sqrt_Rsqr_abs. }
  rewrite E. tauto.
Qed.

Lemma boundary_midnight rc c : phic rc = 0 -> rfun rc (Some 0) = Some c -> 0 <= rr rc + c -> 0 <= rcent rc ->
  boundary_at rc 0 (rcent rc + (rr rc + c)).
Proof.
  intros H F R0 C0. exists c. split; [exact F|]. split.
  - apply meets_midnight; [exact H|]. split; [lra|]. f_equal. lra.
  - intros rho' M. apply (meets_midnight rc _ _ H) in M. destruct M as [M0 M].
    rewrite (Rabs_pos_eq (rr rc + c)) in M by lra.
    destruct (Rle_dec 0 (rho' - rcent rc)); [rewrite Rabs_pos_eq in M by lra; lra|lra].
Qed.

Lemma dual1_ok : paired dual1 rec1 erec1 /\ dual_config dual1 /\ boundary_at rec1 0 24 /\ boundary_at erec1 0 28 /\
  mlt_ok rec1 erec1 0 /\ radius_pos rec1 0.
Proof.
  split; [constructor; cbn; try reflexivity; try lia; try exact I; (split; [cbn; lia|reflexivity])|].
  split; [unfold dual_config; cbn; repeat split; (now left) || lra|].
  split; [replace 24 with (rcent rec1 + (rr rec1 + 2)) by (cbn; lra); apply boundary_midnight; cbn; try reflexivity; lra|].
  split; [replace 28 with (rcent erec1 + (rr erec1 + 1)) by (cbn; lra); apply boundary_midnight; cbn; try reflexivity; lra|].
  split; [left; lra|]. exists 2. split; [reflexivity|cbn; lra].
Qed.

(** ** C37 *)
Theorem C37_dual_normal_regions_partial :
  forall d orc erc lat lt n ow i la t ro re,
    paired d orc erc -> dual_config d ->
    (* [n] points, of which the i-th is (la, t) *)
    dual_args lat lt n -> (i < n)%nat -> belem (el lat) i = Some la -> belem (el lt) i = Some t ->
    in_hemisphere (hemi (d_o d)) la -> mlt_ok orc erc t -> radius_pos orc t ->
    (* the OCB at colatitude [ro], the EAB equatorward of it *)
    boundary_at orc t ro -> boundary_at erc t re -> ro < re < 90 ->
    exists d' BL M L C,
      dual_normal d lat lt ow = (d', Ok (BL, M, L, C)) /\ length (el BL) = n /\
      let h := IZR (hemi (d_o d)) in
      let x := colat (hemi (d_o d)) la in
      let obl := blat (d_o d) in
      let ebl := blat (d_e d) in
      let value v := nth_error (el BL) i = Some (Some v) in
      (x = ro -> value obl) /\
      (x = re -> value ebl) /\
      (x <= ro -> inside orc t x ->
         exists v, value v /\ nth_error (el L) i = Some (Some v) /\ h * obl <= h * v <= 90) /\
      (ro <= x <= re ->
         exists v, value v /\ (h * v - h * ebl) * (re - ro) = (h * obl - h * ebl) * (re - x)) /\
      (re <= x -> exists v, value v /\ h * v * (90 - re) = h * ebl * (90 - x)).
Proof.
  intros d orc erc lat lt n ow i la t ro re P DC A Hi El Et Hin MO RP Bo Be [Hr H90].
  destruct DC as [Hh [He [E0 [EO O90]]]].
  destruct (dual_normal_elem d orc erc lat lt n ow i la t P A Hi El Et Hh Hin RP)
    as (d' & BL & M & L & C & bl & mm & l & flag & ob & eb & m1 & m2 & EQ & _ & _ & _ & _ & _ & _ & _ & _ & _ & LB & _ & _ & IB & _ & IL & _ & NP & W1 & W2 & B1 & B2 & V & _).
  destruct (mlt_ok_eq _ _ _ _ _ MO W1 W2) as [S1 [S2 [F1 F2]]].
  rewrite (boundary_pt_at _ _ _ _ _ Hh Bo S2 F1) in B1. injection B1 as <-.
  rewrite (boundary_pt_at _ _ _ _ _ Hh Be S1 F2) in B2. injection B2 as <-.
  set (h := hemi (d_o d)) in *. set (obl := blat (d_o d)) in *. set (ebl := blat (d_e d)) in *.
  destruct RP as [c [Fc Rc]].
  assert (CO : config_ok h obl) by (split; [exact Hh|]; lra).
  destruct (cap_value h obl orc la t c l mm CO Fc Rc NP) as [V1 [V2 V3]].
  exists d', BL, M, L, C. split; [exact EQ|]. split; [exact LB|]. cbv zeta.
  assert (CAP : colat h la <= ro -> inside orc t (colat h la) -> nth_error (el BL) i = Some (Some l) /\ IZR h * obl <= IZR h * l).
  { intros X [c' [Fc' D]]. rewrite Fc in Fc'. injection Fc' as <-. apply V1 in D. split; [|exact D].
    rewrite IB, V. f_equal. apply (bound_cap h obl ebl ro re la Hh E0 EO Hr H90 Hin flag l X D). }
  assert (EDGE : colat h la = ro -> nth_error (el BL) i = Some (Some obl)).
  { intros X. destruct Bo as [c' [Fc' [[M0 MD] _]]]. rewrite Fc in Fc'. injection Fc' as <-.
    rewrite (Rabs_pos_eq (rr orc + c)) in MD by lra. rewrite <- X in MD.
    destruct (CAP ltac:(lra)) as [Q _]; [exists c; split; [exact Fc|lra]|]. rewrite Q. do 2 f_equal. now apply V2. }
  assert (MID : ro < colat h la <= re -> exists v, nth_error (el BL) i = Some (Some v) /\
     (IZR h * v - IZR h * ebl) * (re - ro) = (IZR h * obl - IZR h * ebl) * (re - colat h la)).
  { intros X. eexists. split.
    - rewrite IB, V. f_equal. apply (bound_mid h obl ebl ro re la Hh E0 EO Hr H90 Hin flag _ X).
    - apply (mid_value h obl ebl ro re la Hh E0 EO Hr H90 Hin _ X eq_refl). }
  assert (OUT : re < colat h la -> exists v, nth_error (el BL) i = Some (Some v) /\
     IZR h * v * (90 - re) = IZR h * ebl * (90 - colat h la)).
  { intros X. eexists. split.
    - rewrite IB, V. f_equal. apply (bound_out h obl ebl ro re la Hh E0 EO Hr H90 Hin flag _ X).
    - apply (out_value h obl ebl ro re la Hh E0 EO Hr H90 Hin _ X eq_refl). }
  assert (EDGE2 : colat h la = re -> nth_error (el BL) i = Some (Some ebl)).
  { intros X. destruct (MID ltac:(lra)) as [v [Q1 Q2]]. rewrite Q1. do 2 f_equal. rewrite X, Rminus_eq_0, Rmult_0_r in Q2.
    apply Rmult_integral in Q2. destruct Q2 as [Q2|Q2]; [|lra]. destruct Hh as [K | K]; rewrite K in Q2; lra. }
  split; [exact EDGE|]. split; [exact EDGE2|]. split; [|split].
  - intros X D. destruct (CAP X D) as [Q1 Q2]. exists l. split; [exact Q1|]. split; [exact IL|]. split; [exact Q2|exact V3].
  - intros X. destruct (Req_dec ro (colat h la)) as [Q|Q].
    + exists obl. split; [apply EDGE; now symmetry|]. rewrite <- Q. reflexivity.
    + apply MID. lra.
  - intros X. destruct (Req_dec re (colat h la)) as [Q|Q].
    + exists ebl. split; [apply EDGE2; now symmetry|]. rewrite <- Q. reflexivity.
    + apply OUT. lra.
Qed.

(** Midway between the boundaries at midnight (latitude 64), a latitude is sent
    midway between the reference latitudes. *)
Example C37_regions_case : exists d' BL M L C,
  dual_normal dual1 (sc (Some 64)) (sc (Some 0)) false = (d', Ok (BL, M, L, C)) /\ el BL = [Some 69].
Proof.
  destruct dual1_ok as [P [DC [B1 [B2 [MO RP]]]]].
  destruct (C37_dual_normal_regions_partial dual1 rec1 erec1 (sc (Some 64)) (sc (Some 0)) 1 false 0 64 0 24 28 P DC) as [d' [BL [M [L [C [E [LB [_ [_ [_ [V _]]]]]]]]]]];
    try assumption; try (cbn; lia); try reflexivity; try (unfold in_hemisphere; cbn; lra); try lra.
  { unfold dual_args, wf_arr. cbn. repeat split; discriminate. }
  exists d', BL, M, L, C. split; [exact E|]. destruct V as [v [V1 V2]]; [unfold colat; cbn; lra|].
  cbn in V2. unfold colat in V2. cbn in V2. destruct (el BL) as [|x [|y l]]; cbn in LB; try lia. cbn in V1. injection V1 as ->.
  do 2 f_equal. lra.
Qed.

(** Along a meridian, from the OCB to the equator, the dual latitude is a strictly
    increasing and Lipschitz-continuous function of latitude that vanishes with it. *)
Theorem C37_dual_normal_monotone_partial :
  forall d orc erc t ro re ow,
    paired d orc erc -> dual_config d -> mlt_ok orc erc t -> radius_pos orc t ->
    boundary_at orc t ro -> boundary_at erc t re -> ro < re < 90 ->
    let hz := hemi (d_o d) in let h := IZR hz in
    exists f : R -> R,
      (forall la, in_hemisphere hz la -> ro <= colat hz la ->
         exists d' BL M L C, dual_normal d (sc (Some la)) (sc (Some t)) ow = (d', Ok (BL, M, L, C)) /\
           el BL = [Some (f la)]) /\
      (forall a b, in_hemisphere hz a -> in_hemisphere hz b -> h * a < h * b -> h * f a < h * f b) /\
      (exists K, 0 < K /\ forall a b, in_hemisphere hz a -> in_hemisphere hz b -> Rabs (f a - f b) <= K * Rabs (a - b)) /\
      (exists K, 0 < K /\ forall a, in_hemisphere hz a -> Rabs (f a) <= K * Rabs a).
Proof.
  intros d orc erc t ro re ow P DC MO RP Bo Be [Hr H90] hz h.
  pose proof DC as [Hh [He [E0 [EO O90]]]].
  fold hz in Hh, He, E0, EO, O90. fold h in E0, EO, O90.
  set (O := h * blat (d_o d)) in *. set (E := h * blat (d_e d)) in *.
  set (yo := 90 - ro). set (ye := 90 - re). assert (Y : 0 < ye < yo) by (unfold yo, ye; lra).
  set (k1 := E / ye). set (k2 := (O - E) / (yo - ye)).
  assert (K1 : 0 < k1) by (apply Rdiv_lt_0_compat; lra). assert (K2 : 0 < k2) by (apply Rdiv_lt_0_compat; lra).
  assert (Q1 : k1 * ye = E) by (unfold k1; field; lra). assert (Q2 : k2 * (yo - ye) = O - E) by (unfold k2; field; lra).
  set (g := fun y => if Rle_dec y ye then k1 * y else E + k2 * (y - ye)).
  set (K := k1 + k2).
  assert (GM : forall y y', y < y' -> 0 < g y' - g y <= K * (y' - y)).
  { intros y y' L. unfold g, K.
    assert (0 < k1 * (y' - y)) by (apply Rmult_lt_0_compat; lra). assert (0 < k2 * (y' - y)) by (apply Rmult_lt_0_compat; lra).
    destruct (Rle_dec y ye) as [A|A], (Rle_dec y' ye) as [B|B]; try lra.
    assert (0 <= k1 * (ye - y)) by (apply Rmult_le_pos; lra). assert (0 < k2 * (y' - ye)) by (apply Rmult_lt_0_compat; lra).
    assert (0 <= k2 * (ye - y)) by (apply Rmult_le_pos; lra). assert (0 < k1 * (y' - ye)) by (apply Rmult_lt_0_compat; lra).
    split; lra. }
  assert (HH : forall a b, Rabs (h * a - h * b) = Rabs (a - b)).
  { intros a b. unfold h. destruct Hh as [-> | ->]; [f_equal; lra|]. rewrite <- Rabs_Ropp. f_equal. lra. }
  assert (HM : forall a, h * (h * a) = a) by (intros a; apply mul_h; exact Hh).
  exists (fun la => h * g (h * la)). split; [|split; [|split]].
  - intros la Hin Hla.
    destruct (C37_dual_normal_regions_partial d orc erc (sc (Some la)) (sc (Some t)) 1 ow 0 la t ro re P DC) as [d' [BL [M [L [C [EQ [LB [_ [_ [_ [V1 V2]]]]]]]]]]];
      try assumption; try lia; try reflexivity; try (split; assumption).
    { unfold dual_args, wf_arr. cbn. repeat split; discriminate. }
    exists d', BL, M, L, C. split; [exact EQ|].
    destruct (el BL) as [|x [|y l]]; cbn in LB; try lia. cbn in V1, V2. f_equal. fold hz h in V1, V2. fold O in V1. fold E in V1, V2.
    unfold in_hemisphere in Hin. fold hz h in Hin.
    assert (X : colat hz la = 90 - h * la) by reflexivity. rewrite X in *. unfold g.
    destruct (Rle_dec (h * la) ye) as [A|A].
    + destruct V2 as [v [V2 V3]]; [unfold ye in A; lra|]. injection V2 as ->. f_equal. rewrite <- (HM v). f_equal.
      apply (Rmult_eq_reg_r ye); [|lra]. unfold ye at 1. rewrite V3. fold ye. rewrite <- Q1. ring.
    + destruct V1 as [v [V1 V3]]; [unfold ye in A; lra|]. injection V1 as ->. f_equal. rewrite <- (HM v). f_equal.
      assert (V4 : (h * v - E) * (yo - ye) = (O - E) * (h * la - ye)) by (unfold yo, ye; lra).
      apply (Rmult_eq_reg_r (yo - ye)); [|lra].
      replace ((E + k2 * (h * la - ye)) * (yo - ye)) with (E * (yo - ye) + (k2 * (yo - ye)) * (h * la - ye)) by ring.
      rewrite Q2. lra.
  - intros a b _ _ L. rewrite !HM. pose proof (GM _ _ L). lra.
  - exists K. split; [unfold K; lra|]. intros a b _ _. rewrite HH.
    rewrite <- (HH a b). destruct (Rtotal_order (h * a) (h * b)) as [L|[L|L]].
    + pose proof (GM _ _ L). rewrite !Rabs_left by lra. lra.
    + rewrite L, !Rminus_eq_0, Rabs_R0. lra.
    + pose proof (GM _ _ L). rewrite !Rabs_right by lra. lra.
  - exists K. split; [unfold K; lra|]. intros a Ha. unfold in_hemisphere in Ha. fold h in Ha.
    pose proof (GM 0 (h * a) Ha) as G. assert (G0 : g 0 = 0) by (unfold g; destruct (Rle_dec 0 ye); [ring|lra]). rewrite G0 in G.
    replace (Rabs (h * g (h * a))) with (Rabs (h * g (h * a) - h * 0)) by (f_equal; ring). rewrite HH.
    replace (Rabs a) with (Rabs (a - 0)) by (f_equal; ring). rewrite <- (HH a 0), Rmult_0_r, !Rminus_0_r.
    rewrite !Rabs_right by lra. lra.
Qed.

(** The equator belongs to neither hemisphere: it has no dual latitude. *)
Theorem C37_equator_refuted :
  exists d orc erc, paired d orc erc /\ dual_config d /\
    forall t ow, exists n, el n = [None] /\
    dual_normal d (sc (Some 0)) (sc (Some t)) ow = (d, Ok (n, n, n, n)).
Proof.
  exists dual1, rec1, erec1. destruct dual1_ok as [P [DC _]]. split; [exact P|]. split; [exact DC|].
  intros t ow. exists (out true [None]). split; [reflexivity|]. unfold dual_normal. cbn [spread sc is0d isint el andb].
  cbn [d_rec d_n dual1]. cbn. unfold normal_coord, current, check_side. cbn. unfold wrong_side, sgn.
  destruct (Rlt_dec 0 0); [lra|]. cbn. reflexivity.
Qed.

(** ** C38 *)
Theorem C38_dual_round_trip :
  forall d orc erc lat lt n ow ow2 i la t ro re,
    paired d orc erc -> dual_config d ->
    dual_args lat lt n -> (i < n)%nat -> belem (el lat) i = Some la -> belem (el lt) i = Some t ->
    in_hemisphere (hemi (d_o d)) la -> 0 <= colat (hemi (d_o d)) la -> mlt_ok orc erc t -> radius_pos orc t ->
    boundary_at orc t ro -> boundary_at erc t re -> ro < re < 90 ->
    (* in the polar cap, between the boundaries, or equatorward of both *)
    inside orc t (colat (hemi (d_o d)) la) \/ ro < colat (hemi (d_o d)) la ->
    exists d' BL M L C d'' LA LT,
      dual_normal d lat lt ow = (d', Ok (BL, M, L, C)) /\
      dual_revert d' BL M C false (Some lt) ow2 = (d'', Ok (LA, LT)) /\
      nth_error (el LA) i = Some (Some la) /\
      (0 < colat (hemi (d_o d)) la ->
         exists m, nth_error (el LT) i = Some (Some m) /\ shifted 24 t m /\ (0 <= t < 24 -> m = t)).
Proof.
  intros d orc erc lat lt n ow ow2 i la t ro re P DC A Hi El Et Hin X0 MO RP Bo Be [Hr H90] REG.
  destruct DC as [Hh [He [E0 [EO O90]]]].
  destruct (dual_normal_elem d orc erc lat lt n ow i la t P A Hi El Et Hh Hin RP)
    as (d' & BL & M & L & C & bl & mm & l & flag & ob & eb & m1 & m2 & EQ & P' & (os & es & D') & ZB & ZM & ZC & NB & NM & NC &
        NDC & LB & LM & LC & IB & IM & IL & IC & NP & W1 & W2 & B1 & B2 & V & _).
  destruct (mlt_ok_eq _ _ _ _ _ MO W1 W2) as [S1 [S2 [F1 F2]]].
  rewrite (boundary_pt_at _ _ _ _ _ Hh Bo S2 F1) in B1. injection B1 as <-.
  rewrite (boundary_pt_at _ _ _ _ _ Hh Be S1 F2) in B2. injection B2 as <-.
  destruct RP as [c [Fc Rc]]. rewrite Fc in IC.
  set (h := hemi (d_o d)) in *. set (obl := blat (d_o d)) in *. set (ebl := blat (d_e d)) in *.
  assert (CO : config_ok h obl) by (split; [exact Hh|]; lra).
  destruct (cap_value h obl orc la t c l mm CO Fc Rc NP) as [V1 [V2 V3]].
  assert (ABS : Rabs ebl < Rabs obl) by (rewrite (abs_h h ebl), (abs_h h obl) by (assumption || lra); lra).
  assert (OD : d_o d' = d_o d /\ d_e d' = d_e d) by (rewrite D'; split; reflexivity). destruct OD as [OD1 OD2].
  destruct A as [Ai [Aj [Aw [Ax Ay]]]].
  assert (REV : forall b, bl = Some b -> 0 < IZR h * b ->
    exists d'' LA LT la' lt', dual_revert d' BL M C false (Some lt) ow2 = (d'', Ok (LA, LT)) /\
    nth_error (el LA) i = Some la' /\ nth_error (el LT) i = Some lt' /\
    exists l0 t0, revert_pt h obl orc (Some b) (Some mm) (Some c) = Ok (l0, t0) /\
    (la', lt') = rev_pt obl ebl ((l0, t0), (Some b, (Some (IZR h * (90 - ro)), Some (IZR h * (90 - re)))), Some m2)).
  { intros b -> Hb.
    destruct (dual_revert_elem d' orc erc BL M C lt n (is0d lat && is0d lt) ow2 i b mm c t P') as
      (d'' & LA & LT & la' & lt' & n1 & n2 & ob & eb & R1 & R2 & R3 & R4 & R5 & R6 & R7 & l0 & t0 & R8 & R9);
      rewrite ?OD1, ?OD2; try assumption; try lia.
    - destruct (is0d lat), (is0d lt); cbn; try discriminate. intros _. exact Ay.
    - destruct (is0d lt) eqn:Z; [now apply Ax|]. destruct (is0d lat); [now symmetry|]. destruct Ay; now symmetry.
    - rewrite W1 in R4. injection R4 as <-. rewrite W2 in R5. injection R5 as <-.
      rewrite OD1 in R6, R7, R8, R9. rewrite OD2 in R9. fold h obl in R6, R7, R8, R9. fold ebl in R9.
      rewrite (boundary_pt_at _ _ _ _ _ Hh Bo S2 F1) in R6. injection R6 as <-.
      rewrite (boundary_pt_at _ _ _ _ _ Hh Be S1 F2) in R7. injection R7 as <-.
      exists d'', LA, LT, la', lt'. repeat (split; [assumption|]). eauto. }
  assert (M2 : 0 <= t < 24 -> m2 = t).
  { intros T. destruct (wrap_twice_shift t) as [a [b' [A1 [A2 [_ [_ I]]]]]]. rewrite W1 in A1. injection A1 as <-.
    rewrite W2 in A2. injection A2 as <-. now apply I. }
  destruct (Rle_lt_dec (colat h la) ro) as [XO|XO].
  - destruct REG as [IN|?]; [|lra]. destruct IN as [c' [Fc' D]]. rewrite Fc in Fc'. injection Fc' as <-. apply V1 in D.
    assert (BV : bl = Some l) by (rewrite V; apply (bound_cap h obl ebl ro re la Hh E0 EO Hr H90 Hin flag l XO D)).
    destruct (REV l BV ltac:(lra)) as (d'' & LA & LT & la' & lt' & R1 & R2 & R3 & l0 & t0 & R8 & R9).
    destruct (round_trip_nr h obl orc la t c l mm CO Fc ltac:(lra) X0 NP) as [m [Q1 [Q2 Q3]]].
    rewrite Q1 in R8. injection R8 as <- <-.
    assert (AL : Rabs l = IZR h * l) by (apply abs_h; [exact Hh|lra]).
    assert (AO : Rabs obl = IZR h * obl) by (apply abs_h; [exact Hh|lra]).
    unfold rev_pt, abs_lt, abs_ge in R9.
    destruct (Rlt_dec (Rabs l) (Rabs ebl)) as [?|_]; [lra|]. destruct (Rlt_dec (Rabs l) (Rabs obl)) as [?|_]; [lra|].
    cbn [andb] in R9. injection R9 as -> ->.
    exists d', BL, M, L, C, d'', LA, LT. split; [exact EQ|]. split; [exact R1|]. split; [exact R2|].
    intros X. exists m. split; [exact R3|]. split; [now apply Q3|]. intros T. destruct (Q3 X) as [k ->].
    assert (k = 0%Z).
    { assert (-1 < IZR k < 1) by lra. destruct H as [K1 K2]. apply lt_IZR in K1. apply lt_IZR in K2. lia. }
    subst k. lra.
  - destruct (Rle_lt_dec (colat h la) re) as [XE|XE].
    + pose proof (eq_trans V (bound_mid h obl ebl ro re la Hh E0 EO Hr H90 Hin flag (Some l) (conj XO XE))) as BM.
      set (v := obl - _) in BM.
      destruct (mid_value h obl ebl ro re la Hh E0 EO Hr H90 Hin v (conj XO XE) eq_refl) as [_ [Q2 Q3]].
      destruct (REV v BM ltac:(lra)) as (d'' & LA & LT & la' & lt' & R1 & R2 & R3 & l0 & t0 & R8 & R9).
      assert (AL : Rabs v = IZR h * v) by (apply abs_h; [exact Hh|lra]).
      assert (AO : Rabs obl = IZR h * obl) by (apply abs_h; [exact Hh|lra]).
      assert (AE : Rabs ebl = IZR h * ebl) by (apply abs_h; [exact Hh|lra]).
      unfold rev_pt, abs_lt, abs_ge in R9.
      destruct (Rlt_dec (Rabs v) (Rabs ebl)) as [?|_]; [lra|]. destruct (Rlt_dec (Rabs v) (Rabs obl)) as [_|?]; [|lra].
      destruct (Rle_dec (Rabs ebl) (Rabs v)) as [_|?]; [|lra]. cbn [andb] in R9.
      unfold rev_mid, fsub, fmul in R9. cbn [fmap2 fdiv2] in R9.
      destruct (Req_EM_T (obl - ebl) 0) as [Z|_]; [exfalso; rewrite (Rminus_diag_uniq _ _ Z) in EO; lra|].
      cbn [fmap2] in R9. rewrite Q3 in R9. injection R9 as -> ->.
      exists d', BL, M, L, C, d'', LA, LT. split; [exact EQ|]. split; [exact R1|]. split; [exact R2|].
      intros _. exists m2. split; [exact R3|]. split; [exact S2|exact M2].
    + pose proof (eq_trans V (bound_out h obl ebl ro re la Hh E0 EO Hr H90 Hin flag (Some l) XE)) as BM.
      set (v := ebl - _) in BM.
      destruct (out_value h obl ebl ro re la Hh E0 EO Hr H90 Hin v XE eq_refl) as [_ [Q2 Q3]].
      destruct (REV v BM ltac:(lra)) as (d'' & LA & LT & la' & lt' & R1 & R2 & R3 & l0 & t0 & R8 & R9).
      assert (AL : Rabs v = IZR h * v) by (apply abs_h; [exact Hh|lra]).
      assert (AE : Rabs ebl = IZR h * ebl) by (apply abs_h; [exact Hh|lra]).
      unfold rev_pt, abs_lt, abs_ge in R9.
      destruct (Rlt_dec (Rabs v) (Rabs ebl)) as [_|?]; [|lra].
      unfold rev_out, fsub, fmul in R9. cbn [fmap2 fdiv2] in R9.
      destruct (Req_EM_T ebl 0) as [Z|_]; [exfalso; rewrite Z in E0; lra|].
      cbn [fmap2] in R9. rewrite Q3 in R9. injection R9 as -> ->.
      exists d', BL, M, L, C, d'', LA, LT. split; [exact EQ|]. split; [exact R1|]. split; [exact R2|].
      intros _. exists m2. split; [exact R3|]. split; [exact S2|exact M2].
Qed.

(** At midnight, latitude 64 lies between the boundaries, 80 in the polar cap, 30
    equatorward of both: all three come back. *)
Example C38_case : forall i la, nth_error [64; 80; 30] i = Some la ->
  exists d' BL M L C d'' LA LT,
    dual_normal dual1 (mkArr false false true [Some 64; Some 80; Some 30]) (sc (Some 0)) false = (d', Ok (BL, M, L, C)) /\
    dual_revert d' BL M C false (Some (sc (Some 0))) false = (d'', Ok (LA, LT)) /\
    nth_error (el LA) i = Some (Some la).
Proof.
  intros i la H. destruct dual1_ok as [P [DC [B1 [B2 [MO RP]]]]].
  assert (Hi : (i < 3)%nat) by (destruct i as [|[|[|i]]]; [lia|lia|lia|destruct i; discriminate H]).
  assert (HL : la = 64 \/ la = 80 \/ la = 30).
  { apply nth_error_In in H. cbn in H. intuition. }
  destruct (C38_dual_round_trip dual1 rec1 erec1 (mkArr false false true [Some 64; Some 80; Some 30]) (sc (Some 0)) 3
              false false i la 0 24 28 P DC) as (d' & BL & M & L & C & d'' & LA & LT & Q1 & Q2 & Q3 & _);
    try assumption; try lra; try (unfold in_hemisphere, colat; cbn; lra); try reflexivity.
  - unfold dual_args, wf_arr. cbn. repeat split; discriminate.
  - destruct i as [|[|[|i]]]; cbn in H; try lia; injection H as <-; reflexivity.
  - unfold colat. cbn [hemi d_o dual1]. destruct HL as [-> | [-> | ->]]; try (right; lra).
    left. exists 2. split; [reflexivity|]. cbn [rr rec1].
    unfold dist, point, centre. cbn [fst snd rcent phic rec1]. replace (0 * PI / 12) with 0 by field.
    replace (0 * PI / 180) with 0 by field. rewrite cos_0, sin_0.
    replace (((90 - 1 * 80) * 1 - 4 * 1) ^ 2 + ((90 - 1 * 80) * 0 - 4 * 0) ^ 2) with (6 * 6) by ring.
    rewrite sqrt_square by lra. lra.
  - exists d', BL, M, L, C, d'', LA, LT. repeat (split; [assumption|]). assumption.
Qed.

(** ** C39 *)
Theorem C39_dual_stores_kept_partial :
  forall d orc erc, paired d orc erc ->
    (forall lat lt d' r, dual_normal d lat lt false = (d', Ok r) -> stores_kept d d') /\
    (forall olat omlt rcorr is_ocb amlt d' r,
       dual_revert d olat omlt rcorr is_ocb amlt false = (d', Ok r) -> stores_kept d d') /\
    (forall lats amlt rcorr d' r, dual_calc_r d lats amlt rcorr false = (d', Ok r) -> stores_kept d d').
Proof.
  intros d orc erc P.
  assert (REFL : stores_kept d d) by (split; intros c k x E N; eauto).
  split; [|split].
  - intros lat lt d' r. unfold dual_normal. destruct (spread lat lt) as [[la ta]|]; [|discriminate].
    destruct (_ || _)%Z; [intros E; injection E as <- _; exact REFL|].
    destruct (normal_coord _ _ _) as [[[[L M] C] after]|]; [|discriminate].
    destruct (forallb isnan (el L)); [intros E; injection E as <- _; exact REFL|].
    apply (with_boundaries_kept d orc erc); exact P.
  - intros olat omlt rcorr is_ocb amlt d' r. unfold dual_revert.
    destruct (spread olat omlt) as [[la ta]|]; [|discriminate].
    destruct (revert_coord _ _ _ _) as [[L M]|]; [|discriminate].
    destruct (is_ocb || _); [intros E; injection E as <- _; exact REFL|].
    destruct amlt as [a|]; [|discriminate]. apply (with_boundaries_kept d orc erc); exact P.
  - intros lats amlt rcorr d' r. unfold dual_calc_r.
    destruct (_ || _)%Z; [intros E; injection E as <- _; exact REFL|].
    destruct (bind _ _) as [r0|]; [|discriminate]. apply (with_boundaries_kept d orc erc); exact P.
Qed.

(** The object of the cases with something stored for each boundary, at MLT 5. *)
Definition dual1s : dualc := put_stores dual1 (Some [Some ([Some 66], [Some 5])]) (Some [Some ([Some 62], [Some 5])]).
Lemma dual1s_ok : paired dual1s rec1 erec1.
Proof. destruct dual1_ok as [[] _]. constructor; cbn in *; try assumption; reflexivity. Qed.

(** In range, the stored boundaries survive a conversion that stores its own. *)
Example C39_case : exists d' r,
  dual_normal dual1s (sc (Some 64)) (sc (Some 0)) false = (d', Ok r) /\
  d_os d' = d_os dual1s /\ d_es d' = d_es dual1s.
Proof.
  destruct dual1_ok as [_ [_ [B1 [B2 [MO RP]]]]].
  destruct (dual_normal_elem dual1s rec1 erec1 (sc (Some 64)) (sc (Some 0)) 1 false 0 64 0 dual1s_ok) as
    (d' & BL & M & L & C & bl & mm & l & flag & ob & eb & m1 & m2 & EQ & P' & (os & es & D') & _); try assumption;
    try reflexivity; try lia; try (now left); try (unfold in_hemisphere; cbn; lra).
  { unfold dual_args, wf_arr. cbn. repeat split; discriminate. }
  exists d', (BL, M, L, C). split; [exact EQ|].
  destruct (C39_dual_stores_kept_partial dual1s rec1 erec1 dual1s_ok) as [K _]. destruct (K _ _ _ _ EQ) as [K1 K2].
  pose proof (p_so _ _ _ P') as F1. pose proof (p_se _ _ _ P') as F2. subst d'. cbn in *.
  destruct (K1 _ 0%nat _ eq_refl eq_refl) as [c1 [-> N1]]. destruct (K2 _ 0%nat _ eq_refl eq_refl) as [c2 [-> N2]].
  destruct c1 as [|x1 [|]]; try discriminate. destruct c2 as [|x2 [|]]; try discriminate. cbn in N1, N2.
  injection N1 as ->. injection N2 as ->. split; reflexivity.
Qed.

(** Missing: a call that fails, and revert_coord before a pair is selected.

    [aacgm_mlt] shorter than the positions: IndexError, and what was stored for the
    pair is lost although [overwrite] is False. *)
Lemma wrapped0 : wrapped (wrapped [Some 0]) = [Some 0].
Proof.
  destruct (wrap_twice_shift 0) as [a [b [A [B [_ [_ H]]]]]]. destruct H as [-> ->]; [lra|].
  unfold wrapped. cbn [map]. rewrite A. now rewrite B.
Qed.
Theorem C39_failed_call_refuted :
  exists d orc erc olat omlt rcorr amlt d',
    paired d orc erc /\ dual_revert d olat omlt rcorr false (Some amlt) false = (d', Err IndexError) /\
    ~ stores_kept d d'.
Proof.
  exists dual1s, rec1, erec1, (mkArr false false true [Some 69; Some 69]), (mkArr false false true [Some 0; Some 0]),
    (sc (Some 2)), (mkArr false false true [Some 0]).
  destruct (update_pair_spec dual1s rec1 erec1 [Some 0] dual1s_ok) as [os [es [E [Lo [Le [_ [_ G]]]]]]].
  exists (put_stores dual1s (Some os) (Some es)). split; [exact dual1s_ok|]. split.
  - unfold dual_revert. cbn [spread is0d isint el andb length Nat.eqb].
    destruct (revert_coord_same (d_o dual1s) [Some 69; Some 69] [Some 0; Some 0] [Some 2; Some 2] false 2 rec1) as [L [M [RE _]]];
      try reflexivity; try lia; try discriminate.
    assert (RR : revert_coord (d_o dual1s) (mkArr false false true [Some 69; Some 69]) (mkArr false false true [Some 0; Some 0]) (sc (Some 2)) = Ok (L, M)).
    { rewrite <- RE. reflexivity. }
    rewrite RR. cbn [orb forallb].
    assert (AG : abs_ge (Some 69) (Some (blat (d_o dual1s))) = false).
    { cbn. rewrite !Rabs_pos_eq by lra. destruct (Rle_dec 74 69); [lra|reflexivity]. }
    rewrite AG. cbn [andb orb].
    assert (OR : originals dual1s = Ok (Some ([Some 62], [Some 5]), Some ([Some 66], [Some 5]))) by reflexivity.
    rewrite OR. unfold with_boundaries. rewrite OR. cbn [d_rec dual1s put_stores dual1] in *. 
    change (d_rec dual1s) with 0%Z in E. rewrite E. cbn. reflexivity.
  - intros [K _]. destruct (K _ 0%nat _ eq_refl eq_refl) as [c [Ec N]]. cbn in Ec. injection Ec as <-.
    apply py_get_denotes in G. destruct G as [k [[K1 K2] G]]. cbn in K2. cbn in Lo. replace k with 0%nat in G by lia.
    rewrite N in G. rewrite wrapped0 in G. injection G as _ G. lra.
Qed.

(** rec_ind = -1: the last pair's boundaries are computed and stored; the last OCB
    record is put back, whether or not it belongs to that pair. *)
Definition dual2 : dualc :=
  mkDual (mkBnd 1 74 [rec1; rec1] 0) (mkBnd 1 64 [erec1] 0) [0%Z] [0%Z] 1 0
    (Some [Some ([Some 66], [Some 5]); Some ([Some 66], [Some 5])]) (Some [Some ([Some 62], [Some 5])]).
Theorem C39_unset_refuted :
  exists d0 d orc erc olat omlt rcorr amlt d' r,
    paired d0 orc erc /\ set_rec d0 (-1) = Ok d /\
    dual_revert d olat omlt rcorr false (Some amlt) false = (d', Ok r) /\ ~ stores_kept d d'.
Proof.
  exists dual2, (mkDual (mkBnd 1 74 [rec1; rec1] (-1)) (mkBnd 1 64 [erec1] (-1)) [0%Z] [0%Z] 1 (-1)
    (Some [Some ([Some 66], [Some 5]); Some ([Some 66], [Some 5])]) (Some [Some ([Some 62], [Some 5])])).
  exists rec1, erec1, (sc (Some 69)), (sc (Some 0)), (sc (Some 2)), (sc (Some 0)).
  set (dd := mkDual _ _ _ _ _ (-1) _ _).
  destruct (get_lat_at (d_e dd) (d_es dd) [Some 0] 0 0 erec1) as [es [Ee [Le [Ne Ke]]]]; try reflexivity; [split; cbn; lia|].
  destruct (get_lat_at (d_o dd) (d_os dd) (map wrap_once [Some 0]) 0 0 rec1) as [os [Eo [Lo [No Ko]]]]; try reflexivity; [split; cbn; lia|].
  specialize (Ko _ 1%nat eq_refl ltac:(lia)). cbn in Lo, Le, Ko.
  destruct os as [|o0 [|o1 [|]]]; cbn in Lo; try lia. destruct es as [|e0 [|]]; cbn in Le; try lia.
  cbn in No, Ne, Ko. injection No as ->. injection Ne as ->. injection Ko as ->.
  set (lo := lats_of _ _ _) in Eo. set (le := lats_of _ _ _) in Ee.
  assert (UP : update_pair dd [Some 0] false (-1) =
    (put_stores dd (Some [Some (lo, map wrap_once (map wrap_once [Some 0])); Some ([Some 66], [Some 5])]) (Some [Some (le, map wrap_once [Some 0])]),
     Ok (le, [Some 66], map wrap_once (map wrap_once [Some 0])))).
  { unfold update_pair. change (py_get (d_ei dd) (-1)) with (Some 0%Z). change (py_get (d_oi dd) (-1)) with (Some 0%Z).
    cbv iota. rewrite Ee. rewrite Eo. reflexivity. }
  do 2 eexists. split; [constructor; cbn; try reflexivity; try lia; (split; [cbn; lia|reflexivity])|].
  split; [reflexivity|]. split.
  - unfold dual_revert. cbn [spread sc is0d isint el andb].
    change (revert_coord (d_o dd) _ _ _) with (Ok (out false [None], out false [None])).
    assert (AG : abs_ge (Some 69) (Some (blat (d_o dd))) = false).
    { cbn. rewrite !Rabs_pos_eq by lra. destruct (Rle_dec 74 69); [lra|reflexivity]. }
    cbn [orb forallb el]. rewrite AG. cbn [andb negb].
    change (originals dd) with (Ok (Some ([Some 62], [Some 5]), Some ([Some 66], [Some 5])) : res (option (list fl * list fl) * option (list fl * list fl))).
    cbv iota. unfold with_boundaries.
    change (originals dd) with (Ok (Some ([Some 62], [Some 5]), Some ([Some 66], [Some 5])) : res (option (list fl * list fl) * option (list fl * list fl))).
    cbv iota. change (d_rec dd) with (-1)%Z. match goal with |- context [update_pair ?a ?b ?c ?e] => rewrite (UP : update_pair a b c e = _) end. cbv iota beta.
    cbn [length map Nat.ltb Nat.leb el]. reflexivity.
  - intros [K _]. destruct (K _ 0%nat _ eq_refl eq_refl) as [c [Ec N]]. cbn in Ec. injection Ec as <-. cbn in N.
    fold (wrap_once (Some 0)) in N.
    change (map wrap_once (map wrap_once [Some 0])) with (wrapped (wrapped [Some 0])) in N.
    injection N as _ N. revert N.
    repeat match goal with |- context [if ?c then _ else _] => destruct c; try (exfalso; lra) end; intros; lra.
Qed.

(** ** C40 *)
Lemma all_none_firstn (l : list fl) n : Forall (fun v => v = None) l -> Forall (fun v => v = None) (firstn n l).
Proof. intros H. revert n. induction H; intros [|n]; cbn; constructor; auto. Qed.

(** With positions relative to the OCB ([is_ocb]) or all of them in the polar cap,
    before the first record ([r < 0]) or just past the last ([r = records]). *)
Theorem C40_dual_revert_undefined_partial :
  forall d d' r olat omlt rcorr is_ocb amlt ow d'' LA LT,
    wf_arr olat -> (r < 0 \/ r = d_n d)%Z -> (0 <= d_n d)%Z -> set_rec d r = Ok d' ->
    is_ocb = true \/ Forall (fun v => exists x, v = Some x /\ Rabs (blat (d_o d)) <= Rabs x) (el olat) ->
    dual_revert d' olat omlt rcorr is_ocb amlt ow = (d'', Ok (LA, LT)) ->
    d'' = d' /\ Forall (fun v => v = None) (el LA) /\ Forall (fun v => v = None) (el LT).
Proof.
  intros d d' r olat omlt rcorr is_ocb amlt ow d'' LA LT [Ne _] Hr Hn Hs Hc.
  assert (NS : none_selected (d_o d') /\ blat (d_o d') = blat (d_o d)).
  { unfold set_rec in Hs. unfold none_selected. destruct (r <? 0)%Z eqn:E.
    - injection Hs as <-. cbn. apply Z.ltb_lt in E. split; [now left|reflexivity].
    - apply Z.ltb_ge in E. destruct Hr as [Hr|Hr]; [lia|]. subst r. rewrite Z.leb_refl in Hs. injection Hs as <-.
      cbn. unfold zlen. split; [right; lia|reflexivity]. }
  destruct NS as [NS BL]. apply current_none in NS. unfold dual_revert.
  destruct (spread olat omlt) as [[la ta]|] eqn:S; [|discriminate].
  unfold revert_coord. rewrite NS.
  assert (C : is_ocb || forallb (fun v => abs_ge v (Some (blat (d_o d')))) (el la) = true).
  { destruct Hc as [-> | Hc]; [reflexivity|]. apply orb_true_iff. right. apply forallb_forall. intros v Hv.
    assert (Iv : In v (el olat) \/ (is0d olat = true /\ v = hd None (el olat) /\ el olat = [])).
    { unfold spread in S. destruct (is0d olat) eqn:Z1, (is0d omlt).
      - injection S as <- <-. now left.
      - injection S as <- <-. cbn in Hv. apply repeat_spec in Hv. destruct (el olat); [right; auto|left; now left].
      - injection S as <- <-. now left.
      - destruct (_ =? _)%nat; [|discriminate]. injection S as <- <-. now left. }
    rewrite Forall_forall in Hc. destruct Iv as [Iv|[Z1 [-> Z2]]].
    - destruct (Hc _ Iv) as [x [-> Hx]]. cbn. rewrite BL. destruct (Rle_dec _ _); [reflexivity|contradiction].
    - contradiction. }
  rewrite C. intros E. injection E as <- <- <-. split; [reflexivity|].
  assert (N : forall l, Forall (fun v : fl => v = None) (el (all_nan l))).
  { intros l. unfold all_nan. cbn [el out]. apply Forall_forall. intros x Hx. now apply repeat_spec in Hx. }
  split; (destruct (is0d olat && is0d omlt); [exact (all_none_firstn _ 1 (N [la; ta; rcorr]))|exact (N [la; ta; rcorr])]).
Qed.

Example C40_case : exists d' LA LT,
  set_rec dual1 1 = Ok d' /\
  dual_revert d' (mkArr false false true [Some 69; Some 80]) (sc (Some 0)) (sc (Some 2)) true None false = (d', Ok (LA, LT)) /\
  el LA = [None; None].
Proof. do 3 eexists. split; [reflexivity|]. split; [reflexivity|]. reflexivity. Qed.

(** Missing: dual-boundary positions, and records further past the last.  Before
    the first record, a dual-boundary position is reverted with the last pair. *)
Definition dual1u : dualc :=
  mkDual (mkBnd 1 74 [rec1] (-1)) (mkBnd 1 64 [erec1] (-1)) [0%Z] [0%Z] 1 (-1) None None.
Lemma lats_midnight : lats_of 1 rec1 [Some 0] = [Some (1 * (90 - 24))] /\ lats_of 1 erec1 [Some 0] = [Some (1 * (90 - 28))].
Proof.
  destruct dual1_ok as [_ [_ [B1 [B2 _]]]].
  assert (S : shifted 24 0 0) by (exists 0%Z; lra).
  unfold lats_of. cbn [mapE].
  rewrite (boundary_pt_at 1 rec1 0 0 24 (or_introl eq_refl) B1 S eq_refl).
  rewrite (boundary_pt_at 1 erec1 0 0 28 (or_introl eq_refl) B2 S eq_refl). split; reflexivity.
Qed.

Theorem C40_before_first_refuted :
  exists d d' d'' LA LT,
    set_rec d (-1) = Ok d' /\ (0 < d_n d)%Z /\
    dual_revert d' (sc (Some 69)) (sc (Some 0)) (sc (Some 2)) false (Some (sc (Some 0))) false = (d'', Ok (LA, LT)) /\
    el LA = [Some 64].
Proof.
  exists dual1, dual1u.
  assert (W1 : map wrap_once ([Some 0] : list fl) = [Some 0]).
  { destruct (wrap_once_shift 0) as [m [E [_ I]]]. cbn [map]. rewrite E, I by lra. reflexivity. }
  pose proof (get_lat_at (d_e dual1u) (d_es dual1u) [Some 0] 0 0 erec1) as GE.
  pose proof (get_lat_at (d_o dual1u) (d_os dual1u) [Some 0] 0 0 rec1) as GO.
  rewrite W1 in GE, GO. destruct lats_midnight as [LM1 LM2].
  change (hemi (d_o dual1u)) with 1%Z in GO. change (hemi (d_e dual1u)) with 1%Z in GE. rewrite LM1 in GO. rewrite LM2 in GE.
  destruct GE as [es [Ee [Le [Ne Ke]]]]; try reflexivity; [split; cbn; lia|].
  destruct GO as [os [Eo [Lo [No Ko]]]]; try reflexivity; [split; cbn; lia|].
  destruct os as [|o0 [|]]; cbn in Lo; try lia. destruct es as [|e0 [|]]; cbn in Le; try lia.
  cbn [nth_error] in No, Ne. injection No as ->. injection Ne as ->.
  assert (UP : exists d2, update_pair dual1u [Some 0] false (-1) = (d2, Ok ([Some (1 * (90 - 28))], [Some (1 * (90 - 24))], [Some 0]))).
  { unfold update_pair. change (py_get (d_ei dual1u) (-1)) with (Some 0%Z). change (py_get (d_oi dual1u) (-1)) with (Some 0%Z).
    cbv iota. rewrite Ee. rewrite Eo. eexists. reflexivity. }
  destruct UP as [d2 UP].
  do 3 eexists. split; [reflexivity|]. split; [cbn; lia|]. split.
  - unfold dual_revert. cbn [spread sc is0d isint el andb].
    change (revert_coord (d_o dual1u) _ _ _) with (Ok (out false [None], out false [None])).
    assert (AG : abs_ge (Some 69) (Some (blat (d_o dual1u))) = false).
    { cbn. rewrite !Rabs_pos_eq by lra. destruct (Rle_dec 74 69); [lra|reflexivity]. }
    cbn [orb forallb el]. rewrite AG. cbn [andb negb].
    change (originals dual1u) with (Ok (None, None) : res (option (list fl * list fl) * option (list fl * list fl))).
    cbv iota. unfold with_boundaries. cbv iota. change (d_rec dual1u) with (-1)%Z.
    match goal with |- context [update_pair ?a ?b ?c ?e] => rewrite (UP : update_pair a b c e = _) end.
    cbv iota beta. cbn [length Nat.ltb Nat.leb]. reflexivity.
  - cbn [el out combine map fst app skipn firstn length]. unfold rev_pt, abs_lt, abs_ge. cbn [blat d_o d_e dual1u].
    rewrite !Rabs_pos_eq by lra.
    destruct (Rlt_dec 69 64); [lra|]. destruct (Rlt_dec 69 74); [|lra]. destruct (Rle_dec 64 69); [|lra].
    cbn [andb fst]. unfold rev_mid, fsub, fmul. cbn [fmap2 fdiv2]. destruct (Req_EM_T (74 - 64) 0); [lra|].
    cbn [fmap2]. do 2 f_equal. lra.
Qed.

(** Just past the last record, the same position is an IndexError; one record
    further, even positions relative to the OCB are reverted, with the last record. *)
Theorem C40_past_last_refuted :
  (exists d', set_rec dual1 1 = Ok d' /\
     dual_revert d' (sc (Some 69)) (sc (Some 0)) (sc (Some 2)) false (Some (sc (Some 0))) false = (d', Err IndexError)) /\
  (exists d' LA LT x, set_rec dual1 2 = Ok d' /\
     dual_revert d' (sc (Some 80)) (sc (Some 0)) (sc (Some 2)) true None false = (d', Ok (LA, LT)) /\ el LA = [Some x]).
Proof.
  split.
  - eexists. split; [reflexivity|]. unfold dual_revert. cbn [spread sc is0d isint el andb].
    match goal with |- context [revert_coord ?a ?b ?c ?e] =>
      change (revert_coord a b c e) with (Ok (out false [None], out false [None])) end.
    cbn [forallb orb andb d_o blat at_rec dual1]. 
    assert (AG : abs_ge (Some 69) (Some 74) = false).
    { cbn. rewrite !Rabs_pos_eq by lra. destruct (Rle_dec 74 69); [lra|reflexivity]. }
    cbn [d_o blat at_rec dual1]. change (blat (d_o _)) with 74. rewrite AG. cbn [andb]. reflexivity.
  - assert (S : current (mkBnd 1 74 [rec1] 0) = Some rec1) by reflexivity.
    destruct (revert_pt_spec 1 74 rec1 80 0 2) as [m [E _]]; [unfold colat; lra|].
    do 3 eexists. eexists. split; [reflexivity|].
    unfold dual_revert. cbn [spread sc is0d isint el andb].
    unfold revert_coord. change (current (d_o _)) with (Some rec1).
    change (hemi (d_o _)) with 1%Z. change (blat (d_o _)) with 74.
    assert (WS : wrong_side 1 (Some 80) = false) by (apply inside_right; [now left|unfold in_hemisphere; cbn; lra]).
    cbn [el is0d forallb andb bc2 map bind mapE fst snd]. rewrite WS. cbn [andb].
    unfold sc. cbn [el bc2 map bind mapE fst snd]. rewrite E. cbn [bind]. split; reflexivity.
Qed.

(** ** C41 *)
Theorem C41_dual_construction_partial :
  forall eab_lat ocb_lat max_delta h eab ocb he le ho lo,
    dual_init eab_lat ocb_lat max_delta h eab ocb = Ok ((he, le), (ho, lo)) ->
    he = ho /\ 0 < max_delta /\
    (eab = None -> ocb = None ->
       he = h /\ (h = 1%Z \/ h = (-1)%Z) /\ Rabs le < Rabs lo /\
       IZR h * le = Rabs eab_lat /\ IZR h * lo = Rabs ocb_lat).
Proof.
  intros eab_lat ocb_lat md h eab ocb he le ho lo. unfold dual_init.
  destruct (Rle_dec (Rabs ocb_lat) (Rabs eab_lat)) as [|A]; [discriminate|].
  destruct (Rle_dec md 0) as [|B]; [discriminate|].
  destruct (match eab with Some p => Ok p | None => _ end) as [e|] eqn:E1; [|discriminate]. cbn [bind].
  destruct (match ocb with Some p => Ok p | None => _ end) as [o|] eqn:E2; [|discriminate]. cbn [bind].
  destruct (fst o =? fst e)%Z eqn:E3; [|discriminate]. intros E. injection E as -> ->. cbn [fst] in E3.
  apply Z.eqb_eq in E3. split; [now symmetry|]. split; [lra|]. intros -> ->.
  assert (I : forall l hh x, (l0 <- init_lat h (Some l) ;; Ok (h, l0)) = Ok (hh, x) ->
     hh = h /\ (h = 1%Z \/ h = (-1)%Z) /\ IZR h * x = Rabs l /\ Rabs x = Rabs l).
  { intros l hh x. unfold init_lat. destruct (negb _) eqn:N; [discriminate|]. cbn [bind]. intros Q. injection Q as <- <-.
    split; [reflexivity|]. apply negb_false_iff, orb_true_iff in N.
    assert (Hh : h = 1%Z \/ h = (-1)%Z) by (destruct N as [N|N]; apply Z.eqb_eq in N; auto).
    split; [exact Hh|]. unfold sgn.
    destruct (Rlt_dec 0 l) as [P|P]; [|destruct (Rlt_dec l 0) as [Q|Q]].
    - rewrite (Rabs_pos_eq l) by lra. destruct Hh as [-> | ->]; cbn.
      + rewrite Rabs_pos_eq by lra. lra.
      + rewrite Rabs_left by lra. lra.
    - rewrite (Rabs_left l) by lra. destruct Hh as [-> | ->]; cbn.
      + rewrite Rabs_pos_eq by lra. lra.
      + rewrite Rabs_left by lra. lra.
    - assert (l = 0) by lra. subst l. destruct Hh as [-> | ->]; cbn; rewrite Rmult_0_l, Rabs_R0; lra. }
  destruct (I _ _ _ E1) as [-> [Hh [I1 I2]]]. destruct (I _ _ _ E2) as [-> [_ [I3 I4]]].
  split; [reflexivity|]. split; [exact Hh|]. split; [lra|]. now split.
Qed.

Example C41_case : dual_init 64 74 60 (-1) None None = Ok (((-1)%Z, -64), ((-1)%Z, -74)).
Proof.
  unfold dual_init, init_lat, sgn. rewrite !Rabs_pos_eq by lra. destruct (Rle_dec 74 64); [lra|].
  destruct (Rle_dec 60 0); [lra|]. cbn. destruct (Rlt_dec 0 64); [|lra]. destruct (Rlt_dec 0 74); [|lra]. cbn.
  do 3 f_equal; lra.
Qed.

(** Missing: boundary objects supplied by the caller are not compared. *)
Theorem C41_supplied_boundaries_refuted :
  exists eab ocb, dual_init 64 74 60 1 (Some eab) (Some ocb) = Ok (eab, ocb) /\ Rabs (snd ocb) < Rabs (snd eab).
Proof.
  exists (1%Z, 80), (1%Z, 70). unfold dual_init. cbn [snd]. rewrite !Rabs_pos_eq by lra.
  destruct (Rle_dec 74 64); [lra|]. destruct (Rle_dec 60 0); [lra|]. cbn. split; [reflexivity|lra].
Qed.

(** ** C42 *)
Theorem C42_region_radii :
  forall d orc erc (lats amlt rcorr : list fl) n ow i b t c ro re,
    paired d orc erc -> dual_config d ->
    length lats = n -> length amlt = n -> length rcorr = n ->
    nth_error lats i = Some (Some b) -> nth_error amlt i = Some (Some t) -> nth_error rcorr i = Some (Some c) ->
    mlt_ok orc erc t -> boundary_at orc t ro -> boundary_at erc t re -> ro < re < 90 ->
    exists d' S U,
      dual_calc_r d lats amlt rcorr ow = (d', Ok (S, U)) /\ length S = n /\ length U = n /\
      let radii s u := nth_error S i = Some (Some s) /\ nth_error U i = Some (Some u) in
      let obl := Rabs (blat (d_o d)) in
      let ebl := Rabs (blat (d_e d)) in
      (* polar cap; between the boundaries; equatorward of both *)
      (obl <= Rabs b -> radii (90 - obl) (rr orc + c)) /\
      (ebl <= Rabs b < obl -> radii (obl - ebl) (re - ro)) /\
      (Rabs b < ebl -> radii ebl (90 - re)).
Proof.
  intros d orc erc lats amlt rcorr n ow i b t c ro re P DC L1 L2 L3 Ib It Ic MO Bo Be [Hr H90].
  destruct DC as [Hh [He [E0 [EO O90]]]].
  set (h := hemi (d_o d)) in *. 
  assert (AO : Rabs (blat (d_o d)) = IZR h * blat (d_o d)) by (apply abs_h; [exact Hh|lra]).
  assert (AE : Rabs (blat (d_e d)) = IZR h * blat (d_e d)) by (apply abs_h; [exact Hh|lra]).
  unfold dual_calc_r. pose proof (p_range _ _ _ P) as R.
  replace ((d_rec d <? 0) || (d_n d <=? d_rec d))%Z with false
    by (symmetry; apply orb_false_iff; split; [apply Z.ltb_ge; lia|apply Z.leb_gt; lia]).
  unfold getE at 1. rewrite (py_get_nonneg _ _ _ (proj1 R) (p_oi _ _ _ P)). cbn [bind].
  pose proof (p_o _ _ _ P) as [So Sn]. unfold getE at 1. rewrite (py_get_nonneg _ _ _ (proj1 So) Sn). cbn [bind].
  set (ow' := ow || _).
  match goal with |- context [with_boundaries d amlt false ow' ?u] =>
    destruct (with_boundaries_spec d orc erc amlt ow' u P) as [d' [W _]] end.
  fold h in W. destruct (wrap_twice_shift t) as [m1 [m2 [T1 [T2 _]]]].
  destruct (mlt_ok_eq _ _ _ _ _ MO T1 T2) as [S1 [S2 [F1 F2]]].
  assert (J1 : nth_error (wrapped amlt) i = Some (Some m1)) by (unfold wrapped; rewrite nth_error_map, It; cbn [option_map]; now rewrite T1).
  assert (J2 : nth_error (wrapped (wrapped amlt)) i = Some (Some m2)) by (unfold wrapped at 1; rewrite nth_error_map, J1; cbn [option_map]; now rewrite T2).
  destruct (lats_of_nth h erc _ _ _ J1) as [e [K1 K2]]. destruct (lats_of_nth h orc _ _ _ J2) as [o [K3 K4]].
  rewrite (boundary_pt_at _ _ _ _ _ Hh Be S1 F2) in K2. injection K2 as <-.
  rewrite (boundary_pt_at _ _ _ _ _ Hh Bo S2 F1) in K4. injection K4 as <-.
  set (eb := lats_of h erc (wrapped amlt)) in *. set (ob := lats_of h orc (wrapped (wrapped amlt))) in *.
  assert (LE : length eb = n) by (unfold eb; rewrite lats_of_len; unfold wrapped; now rewrite map_length).
  assert (LO : length ob = n) by (unfold ob; rewrite lats_of_len; unfold wrapped; now rewrite !map_length).
  pose proof (nth_combine _ _ _ _ _ (nth_combine _ _ _ _ _ Ib (nth_combine _ _ _ _ _ K3 K1)) Ic) as PS.
  match goal with W : _ = (d', Ok (map fst (map ?F ?Q), _)) |- _ => pose proof (map_nth_error F i Q PS) as RP end.
  rewrite W. do 3 eexists. split; [reflexivity|]. rewrite !map_length, !combine_length.
  split; [lia|]. split; [lia|]. cbv zeta.
  pose proof (map_nth_error fst i _ RP) as X1. pose proof (map_nth_error snd i _ RP) as X2.
  rewrite X1, X2. cbn [fst snd fmap]. unfold radii_pt, abs_lt, abs_ge.
  assert (VE : Rabs (IZR h * (90 - re)) = 90 - re) by (apply (abs_e h re Hh); lra).
  assert (VO : Rabs (IZR h * (90 - ro) - IZR h * (90 - re)) = re - ro).
  { destruct Hh as [-> | ->]; [rewrite Rabs_pos_eq|rewrite Rabs_left]; lra. }
  assert (VB : Rabs (blat (d_o d) - blat (d_e d)) = Rabs (blat (d_o d)) - Rabs (blat (d_e d))).
  { rewrite AO, AE. replace (IZR h * blat (d_o d) - IZR h * blat (d_e d)) with (IZR h * (blat (d_o d) - blat (d_e d))) by ring.
    apply abs_h; [exact Hh|lra]. }
  split; [|split]; intros H.
  - destruct (Rlt_dec (Rabs b) (Rabs (blat (d_e d)))); [lra|]. destruct (Rlt_dec (Rabs b) (Rabs (blat (d_o d)))); [lra|].
    split; reflexivity.
  - destruct (Rlt_dec (Rabs b) (Rabs (blat (d_e d)))); [lra|]. destruct (Rlt_dec (Rabs b) (Rabs (blat (d_o d)))); [|lra].
    destruct (Rle_dec (Rabs (blat (d_e d))) (Rabs b)); [|lra]. cbn [andb fst snd fsub fmap2 fmap]. unfold fsub. cbn [fmap2 fmap].
    rewrite VB. split; [reflexivity|]. rewrite <- VO. reflexivity.
  - destruct (Rlt_dec (Rabs b) (Rabs (blat (d_e d)))); [|lra]. cbn [fst snd fmap].
    split; [reflexivity|]. exact (f_equal (fun z => Some (Some z)) VE).
Qed.

Example C42_case : exists d' S U,
  dual_calc_r dual1 [Some 69; Some 80; Some 30] [Some 0; Some 0; Some 0] [Some 2; Some 2; Some 2] false = (d', Ok (S, U)) /\
  S = [Some (74 - 64); Some (90 - 74); Some 64] /\ U = [Some (28 - 24); Some (18 + 2); Some (90 - 28)].
Proof.
  destruct dual1_ok as [P [DC [B1 [B2 [MO RP]]]]].
  pose proof (fun i b Ib It Ic => C42_region_radii dual1 rec1 erec1 [Some 69; Some 80; Some 30] [Some 0; Some 0; Some 0] [Some 2; Some 2; Some 2] 3 false
    i b 0 2 24 28 P DC eq_refl eq_refl eq_refl Ib It Ic MO B1 B2 ltac:(lra)) as G.
  destruct (G 0%nat 69 eq_refl eq_refl eq_refl) as [d' [S [U [E [LS [LU [_ [X0 _]]]]]]]].
  destruct (G 1%nat 80 eq_refl eq_refl eq_refl) as [d1 [S1 [U1 [E1 [_ [_ [X1 _]]]]]]].
  destruct (G 2%nat 30 eq_refl eq_refl eq_refl) as [d2 [S2 [U2 [E2 [_ [_ [_ [_ X2]]]]]]]].
  rewrite E in E1. injection E1 as <- <- <-. rewrite E in E2. injection E2 as <- <- <-.
  exists d', S, U. split; [exact E|]. cbn [blat d_o d_e dual1] in *. rewrite !Rabs_pos_eq in * by lra.
  specialize (X0 ltac:(lra)). specialize (X1 ltac:(lra)). specialize (X2 ltac:(lra)).
  destruct S as [|s0 [|s1 [|s2 [|]]]]; cbn in LS; try lia. destruct U as [|u0 [|u1 [|u2 [|]]]]; cbn in LU; try lia.
  cbn in X0, X1, X2. destruct X0 as [X01 X02], X1 as [X11 X12], X2 as [X21 X22].
  injection X01 as ->. injection X02 as ->. injection X11 as ->. injection X12 as ->. injection X21 as ->. injection X22 as ->.
  split; reflexivity.
Qed.

(** The ratio of the radii is the local scale of the normalisation: between two
    points of one meridian in one region below the OCB, the difference of the
    normalised latitudes times the unscaled radius is the difference of the latitudes
    times the scaled one. *)
Theorem C42_radii_are_scale :
  forall d orc erc t ro re a b d1 d2 d3 A B M1 M2 L1 L2 C1 C2 S U v w s u c ow,
    paired d orc erc -> dual_config d -> mlt_ok orc erc t -> radius_pos orc t ->
    boundary_at orc t ro -> boundary_at erc t re -> ro < re < 90 ->
    let hz := hemi (d_o d) in
    in_hemisphere hz a -> in_hemisphere hz b ->
    (ro < colat hz a <= re /\ ro < colat hz b <= re) \/ (re < colat hz a /\ re < colat hz b) ->
    dual_normal d (sc (Some a)) (sc (Some t)) ow = (d1, Ok (A, M1, L1, C1)) -> el A = [Some v] ->
    dual_normal d (sc (Some b)) (sc (Some t)) ow = (d2, Ok (B, M2, L2, C2)) -> el B = [Some w] ->
    dual_calc_r d [Some v] [Some t] [Some c] ow = (d3, Ok (S, U)) -> S = [Some s] -> U = [Some u] ->
    (v - w) * u = (a - b) * s.
Proof.
  intros d orc erc t ro re a b d1 d2 d3 A B M1 M2 L1 L2 C1 C2 S U v w s u c ow P DC MO RP Bo Be Hr hz Ha Hb REG E1 V1 E2 V2 E3 Hs Hu.
  pose proof DC as [Hh [He [E0 [EO O90]]]]. fold hz in Hh, He, E0, EO, O90.
  assert (DA : forall x, dual_args (sc (Some x)) (sc (Some t)) 1) by (intros x; unfold dual_args, wf_arr; cbn; repeat split; discriminate).
  destruct (C37_dual_normal_regions_partial d orc erc (sc (Some a)) (sc (Some t)) 1 ow 0 a t ro re P DC (DA a) ltac:(lia) eq_refl eq_refl Ha MO RP Bo Be Hr)
    as [x1 [x2 [x3 [x4 [x5 [X [_ [_ [_ [_ [XM XO]]]]]]]]]]].
  rewrite E1 in X. injection X as <- <- <- <- <-. rewrite V1 in XM, XO. cbn [nth_error] in XM, XO.
  destruct (C37_dual_normal_regions_partial d orc erc (sc (Some b)) (sc (Some t)) 1 ow 0 b t ro re P DC (DA b) ltac:(lia) eq_refl eq_refl Hb MO RP Bo Be Hr)
    as [y1 [y2 [y3 [y4 [y5 [Y [_ [_ [_ [_ [YM YO]]]]]]]]]]].
  rewrite E2 in Y. injection Y as <- <- <- <- <-. rewrite V2 in YM, YO. cbn [nth_error] in YM, YO.
  destruct (C42_region_radii d orc erc [Some v] [Some t] [Some c] 1 ow 0 v t c ro re P DC eq_refl eq_refl eq_refl eq_refl eq_refl eq_refl MO Bo Be Hr)
    as [z1 [z2 [z3 [Z [_ [_ [_ [ZM ZO]]]]]]]].
  rewrite E3 in Z. injection Z as <- <- <-. rewrite Hs, Hu in ZM, ZO. cbn [nth_error] in ZM, ZO.
  fold hz in XM, XO, YM, YO. unfold in_hemisphere in Ha, Hb.
  assert (AO : Rabs (blat (d_o d)) = IZR hz * blat (d_o d)) by (apply abs_h; [exact Hh|lra]).
  assert (AE : Rabs (blat (d_e d)) = IZR hz * blat (d_e d)) by (apply abs_h; [exact Hh|lra]).
  rewrite AO, AE in ZM. rewrite AE in ZO. set (O := IZR hz * blat (d_o d)) in *. set (E := IZR hz * blat (d_e d)) in *.
  unfold colat in *. set (h := IZR hz) in *.
  assert (H1 : h * h = 1) by (unfold h; destruct Hh as [-> | ->]; lra).
  assert (RED : (h * v - h * w) * u = (h * a - h * b) * s -> (v - w) * u = (a - b) * s).
  { intros Q. replace ((v - w) * u) with (h * ((h * v - h * w) * u)) by (replace (h * ((h * v - h * w) * u)) with (h * h * ((v - w) * u)) by ring; rewrite H1; ring).
    rewrite Q. replace (h * ((h * a - h * b) * s)) with (h * h * ((a - b) * s)) by ring. rewrite H1. ring. }
  apply RED. destruct REG as [[R1 R2]|[R1 R2]].
  - destruct (XM ltac:(lra)) as [v' [Q1 Q2]]. injection Q1 as <-. destruct (YM ltac:(lra)) as [w' [Q3 Q4]]. injection Q3 as <-.
    assert (VP : 0 < h * v).
    { assert (0 <= (O - E) * (re - (90 - h * a))) by (apply Rmult_le_pos; lra). rewrite <- Q2 in H.
      destruct (Rle_lt_dec 0 (h * v - E)) as [G|G]; [lra|].
      assert (0 < (E - h * v) * (re - ro)) by (apply Rmult_lt_0_compat; lra). lra. }
    assert (AV : Rabs v = h * v) by (apply abs_h; [exact Hh|exact VP]).
    assert (VR : E <= h * v < O).
    { split.
      - destruct (Rle_lt_dec E (h * v)) as [G|G]; [exact G|].
        assert (0 < (E - h * v) * (re - ro)) by (apply Rmult_lt_0_compat; lra).
        assert (0 <= (O - E) * (re - (90 - h * a))) by (apply Rmult_le_pos; lra). lra.
      - destruct (Rlt_le_dec (h * v) O) as [G|G]; [exact G|].
        assert ((O - E) * (re - ro) <= (h * v - E) * (re - ro)) by (apply Rmult_le_compat_r; lra).
        assert ((O - E) * (re - (90 - h * a)) < (O - E) * (re - ro)) by (apply Rmult_lt_compat_l; lra). lra. }
    rewrite AV in ZM. destruct (ZM VR) as [G1 G2]. injection G1 as ->. injection G2 as ->. lra.
  - destruct (XO ltac:(lra)) as [v' [Q1 Q2]]. injection Q1 as <-. destruct (YO ltac:(lra)) as [w' [Q3 Q4]]. injection Q3 as <-.
    assert (VP : 0 < h * v).
    { destruct (Rlt_le_dec 0 (h * v)) as [G|G]; [exact G|].
      assert (0 < E * (90 - (90 - h * a))) by (apply Rmult_lt_0_compat; lra).
      assert (0 <= - (h * v) * (90 - re)) by (apply Rmult_le_pos; lra). lra. }
    assert (AV : Rabs v = h * v) by (apply abs_h; [exact Hh|exact VP]).
    assert (VR : h * v < E).
    { destruct (Rlt_le_dec (h * v) E) as [G|G]; [exact G|].
      assert (E * (90 - re) <= h * v * (90 - re)) by (apply Rmult_le_compat_r; lra).
      assert (E * (90 - (90 - h * a)) < E * (90 - re)) by (apply Rmult_lt_compat_l; lra). lra. }
    rewrite AV in ZO. destruct (ZO VR) as [G1 G2]. injection G1 as ->. injection G2 as ->. lra.
Qed.

(** ** C81 *)
Theorem C81_points_independent_partial :
  forall d orc erc lat lt n ow i la t ro re,
    paired d orc erc -> dual_config d ->
    dual_args lat lt n -> (i < n)%nat -> belem (el lat) i = Some la -> belem (el lt) i = Some t ->
    in_hemisphere (hemi (d_o d)) la -> mlt_ok orc erc t -> radius_pos orc t ->
    boundary_at orc t ro -> boundary_at erc t re -> ro < re < 90 ->
    inside orc t (colat (hemi (d_o d)) la) \/ ro < colat (hemi (d_o d)) la ->
    exists d1 BL M L C d2 bl m l c,
      dual_normal d lat lt ow = (d1, Ok (BL, M, L, C)) /\
      (* the point alone *)
      dual_normal d (sc (Some la)) (sc (Some t)) ow = (d2, Ok (out true [bl], out true [m], out true [l], out true [c])) /\
      nth_error (el BL) i = Some bl /\ nth_error (el M) i = Some m /\
      nth_error (el L) i = Some l /\ nth_error (el C) i = Some c.
Proof.
  intros d orc erc lat lt n ow i la t ro re P DC A Hi El Et Hin MO RP Bo Be [Hr H90] REG.
  destruct DC as [Hh [He [E0 [EO O90]]]].
  destruct (dual_normal_elem d orc erc lat lt n ow i la t P A Hi El Et Hh Hin RP)
    as (d' & BL & M & L & C & bl & mm & l & flag & ob & eb & m1 & m2 & EQ & _ & _ & _ & _ & _ & _ & _ & _ & _ & _ & _ & _ & IB & IM & IL & IC & NP & W1 & W2 & B1 & B2 & V & _).
  assert (A1 : dual_args (sc (Some la)) (sc (Some t)) 1) by (unfold dual_args, wf_arr; cbn; repeat split; discriminate).
  destruct (dual_normal_elem d orc erc (sc (Some la)) (sc (Some t)) 1 ow 0 la t P A1 ltac:(lia) eq_refl eq_refl Hh Hin RP)
    as (d2 & BL2 & M2 & L2 & C2 & bl2 & mm2 & l2 & flag2 & ob2 & eb2 & n1 & n2 & EQ2 & _ & _ & _ & _ & _ & _ & _ & _ & _ & LB2 & LM2 & LC2 & IB2 & IM2 & IL2 & IC2 & NP2 & X1 & X2 & Y1 & Y2 & V2 & SHAPE).
  rewrite NP in NP2. injection NP2 as <- <-. rewrite W1 in X1. injection X1 as <-. rewrite W2 in X2. injection X2 as <-.
  rewrite B1 in Y1. injection Y1 as <-. rewrite B2 in Y2. injection Y2 as <-.
  destruct (mlt_ok_eq _ _ _ _ _ MO W1 W2) as [S1 [S2 [F1 F2]]].
  rewrite (boundary_pt_at _ _ _ _ _ Hh Bo S2 F1) in B1. injection B1 as <-.
  rewrite (boundary_pt_at _ _ _ _ _ Hh Be S1 F2) in B2. injection B2 as <-.
  set (h := hemi (d_o d)) in *. set (obl := blat (d_o d)) in *. set (ebl := blat (d_e d)) in *.
  destruct RP as [c [Fc Rc]].
  assert (CO : config_ok h obl) by (split; [exact Hh|]; lra).
  destruct (cap_value h obl orc la t c l mm CO Fc Rc NP) as [V1 _].
  assert (SAME : bl2 = bl).
  { rewrite V, V2. destruct (Rle_lt_dec (colat h la) ro) as [XO|XO].
    - destruct REG as [[c' [Fc' D]]|?]; [|lra]. rewrite Fc in Fc'. injection Fc' as <-. apply V1 in D.
      exact (eq_trans (bound_cap h obl ebl ro re la Hh E0 EO Hr H90 Hin flag2 l XO D)
              (eq_sym (bound_cap h obl ebl ro re la Hh E0 EO Hr H90 Hin flag l XO D))).
    - destruct (Rle_lt_dec (colat h la) re) as [XE|XE].
      + exact (eq_trans (bound_mid h obl ebl ro re la Hh E0 EO Hr H90 Hin flag2 (Some l) (conj XO XE))
                (eq_sym (bound_mid h obl ebl ro re la Hh E0 EO Hr H90 Hin flag (Some l) (conj XO XE)))).
      + exact (eq_trans (bound_out h obl ebl ro re la Hh E0 EO Hr H90 Hin flag2 (Some l) XE)
                (eq_sym (bound_out h obl ebl ro re la Hh E0 EO Hr H90 Hin flag (Some l) XE))). }
  rewrite SAME in IB2. clear V2 SAME bl2.
  exists d', BL, M, L, C, d2, bl, (Some mm), (Some l), (rfun orc (Some t)).
  split; [exact EQ|]. split; [|repeat (split; [assumption|]); assumption].
  rewrite EQ2.
  destruct SHAPE as [x [y [z [w [-> [-> [-> [-> LZ]]]]]]]]. cbn [el out sc is0d andb] in *.
  destruct x as [|x0 [|]]; cbn in LB2; try lia. destruct y as [|y0 [|]]; cbn in LM2; try lia.
  destruct z as [|z0 [|]]; cbn in LZ; try lia. destruct w as [|w0 [|]]; cbn in LC2; try lia.
  cbn [nth_error] in IB2, IM2, IL2, IC2. injection IB2 as ->. injection IM2 as ->. injection IL2 as ->. injection IC2 as ->.
  reflexivity.
Qed.

(** At midnight the case's three points keep the values they have alone. *)
Example C81_case : exists d1 BL M L C d2 bl m l c,
  dual_normal dual1 (mkArr false false true [Some 64; Some 80; Some 30]) (sc (Some 0)) false = (d1, Ok (BL, M, L, C)) /\
  dual_normal dual1 (sc (Some 30)) (sc (Some 0)) false = (d2, Ok (out true [bl], out true [m], out true [l], out true [c])) /\
  nth_error (el BL) 2 = Some bl.
Proof.
  destruct dual1_ok as [P [DC [B1 [B2 [MO RP]]]]].
  assert (A : dual_args (mkArr false false true [Some 64; Some 80; Some 30]) (sc (Some 0)) 3).
  { unfold dual_args, wf_arr. cbn. repeat split; discriminate. }
  assert (Hin : in_hemisphere (hemi (d_o dual1)) 30) by (unfold in_hemisphere, colat; cbn; lra).
  assert (REG : inside rec1 0 (colat (hemi (d_o dual1)) 30) \/ 24 < colat (hemi (d_o dual1)) 30) by (right; unfold colat; cbn; lra).
  assert (R3 : 24 < 28 < 90) by lra.
  destruct (C81_points_independent_partial dual1 rec1 erec1 _ _ 3 false 2 30 0 24 28 P DC A (le_n 3) eq_refl eq_refl Hin MO RP B1 B2 R3 REG)
    as (d1 & BL & M & L & C & d2 & bl & m & l & c & Q1 & Q2 & Q3 & _).
  exists d1, BL, M, L, C, d2, bl, m, l, c. exact (conj Q1 (conj Q2 Q3)).
Qed.

(** Missing: a point that lies in no region.  It becomes NaN only if the regions
    hold fewer points than there are, and a point far equatorward counts twice.  Here
    the OCB does not surround the pole: (85, 12) alone is NaN, but beside (10, 0) it
    is given a latitude. *)
Definition wrec : rec := mkRec 5 20 0 (fun m => fmap (fun _ => 0) m).
Definition werec : rec := mkRec 25 0 0 (fun m => fmap (fun _ => 0) m).
Definition dualw : dualc := mkDual (mkBnd 1 74 [wrec] 0) (mkBnd 1 64 [werec] 0) [0%Z] [0%Z] 1 0 None None.
Lemma dualw_paired : paired dualw wrec werec.
Proof. constructor; cbn; try reflexivity; try lia; try exact I; (split; [cbn; lia|reflexivity]). Qed.

Lemma noon_angle : 12 * PI / 12 = PI.
Proof. field. Qed.

Lemma dualw_facts :
  (exists m, normal_pt 1 74 wrec (Some 85) (Some 12) = Ok (Some 10, Some m)) /\
  (exists m, normal_pt 1 74 wrec (Some 10) (Some 0) = Ok (Some (-102), Some m)) /\
  boundary_pt 1 wrec (Some 12) = Ok None /\ boundary_pt 1 wrec (Some 0) = Ok (Some (1 * (90 - 25))) /\
  boundary_pt 1 werec (Some 12) = Ok (Some (1 * (90 - 25))) /\ boundary_pt 1 werec (Some 0) = Ok (Some (1 * (90 - 25))).
Proof.
  assert (S : forall t, shifted 24 t t) by (intros t; exists 0%Z; lra).
  assert (WE : forall t, boundary_at werec t 25).
  { intros t. exists 0. split; [reflexivity|].
    assert (D : forall rho, dist (point rho t) (centre werec) = Rabs rho).
    { intros rho. unfold dist, point, centre. cbn [fst snd rcent werec].
      replace ((rho * cos (t * PI / 12) - 0 * cos (phic werec * PI / 180)) ^ 2 +
               (rho * sin (t * PI / 12) - 0 * sin (phic werec * PI / 180)) ^ 2)
        with (rho * rho * ((sin (t * PI / 12))² + (cos (t * PI / 12))²)) by (unfold Rsqr; ring).
      rewrite sin2_cos2, Rmult_1_r. apply sqrt_Rsqr_abs. }
    unfold meets. cbn [rr werec]. rewrite !D. split; [split; [lra|]; f_equal; lra|].
    intros r [R0 R1]. rewrite D in R1. rewrite !Rabs_pos_eq in R1 by lra. lra. }
  split; [|split; [|split; [|split; [|split]]]].
  - destruct (normal_pt_spec 1 74 wrec 85 12 0 eq_refl) as [m [E _]]; [cbn; lra|]. exists m. rewrite E. do 3 f_equal.
    assert (D : dist (point (colat 1 85) 12) (centre wrec) = 25).
    { unfold dist, point, centre, colat. cbn [fst snd rcent phic wrec]. rewrite noon_angle. replace (0 * PI / 180) with 0 by field.
      rewrite cos_0, sin_0, cos_PI, sin_PI. match goal with |- sqrt ?x = _ => replace x with (25 * 25) by ring end.
      apply sqrt_square. lra. }
    rewrite D. cbn [rr wrec]. rewrite (Rabs_pos_eq 74) by lra. rewrite Rabs_pos_eq by lra. lra.
  - destruct (normal_pt_spec 1 74 wrec 10 0 0 eq_refl) as [m [E _]]; [cbn; lra|]. exists m. rewrite E. do 3 f_equal.
    assert (D : dist (point (colat 1 10) 0) (centre wrec) = 60).
    { unfold dist, point, centre, colat. cbn [fst snd rcent phic wrec]. replace (0 * PI / 12) with 0 by field. replace (0 * PI / 180) with 0 by field.
      rewrite cos_0, sin_0. match goal with |- sqrt ?x = _ => replace x with (60 * 60) by ring end.
      apply sqrt_square. lra. }
    rewrite D. cbn [rr wrec]. rewrite (Rabs_pos_eq 74) by lra. rewrite Rabs_pos_eq by lra. lra.
  - pose proof (boundary_pt_spec 1 wrec 12 (or_introl eq_refl)) as B. cbn [rfun wrec fmap] in B.
    change (fmap (fun _ => 0) (Some 12)) with (Some 0) in B. cbv iota in B.
    destruct B as [[lat [_ [[M0 M1] _]]]|[B _]]; [exfalso|exact B].
    assert (D : dist (point (colat 1 lat) 12) (centre wrec) = Rabs (colat 1 lat + 20)).
    { unfold dist, point, centre. cbn [fst snd rcent phic wrec]. rewrite noon_angle. replace (0 * PI / 180) with 0 by field.
      rewrite cos_0, sin_0, cos_PI, sin_PI. rewrite <- sqrt_Rsqr_abs. f_equal. unfold Rsqr. ring. }
    rewrite D in M1. cbn [rr wrec] in M1. rewrite !Rabs_pos_eq in M1 by lra. lra.
  - apply (boundary_pt_at 1 wrec 0 0 25 (or_introl eq_refl)); [|apply S|reflexivity].
    replace 25 with (rcent wrec + (rr wrec + 0)) by (cbn; lra). apply boundary_midnight; cbn; try reflexivity; lra.
  - exact (boundary_pt_at 1 werec 12 12 25 (or_introl eq_refl) (WE 12) (S 12) eq_refl).
  - exact (boundary_pt_at 1 werec 0 0 25 (or_introl eq_refl) (WE 0) (S 0) eq_refl).
Qed.

Theorem C81_points_independent_refuted :
  exists d orc erc d1 BL M L C d2 bl m l c x,
    paired d orc erc /\ dual_config d /\
    dual_normal d (mkArr false false true [Some 85; Some 10]) (mkArr false false true [Some 12; Some 0]) false = (d1, Ok (BL, M, L, C)) /\
    dual_normal d (sc (Some 85)) (sc (Some 12)) false = (d2, Ok (out true [bl], m, l, c)) /\
    nth_error (el BL) 0 = Some (Some x) /\ bl = None.
Proof.
  exists dualw, wrec, werec. destruct dualw_facts as [[ma N1] [[mb N2] [B1 [B2 [B3 B4]]]]].
  assert (W : forall x, 0 <= x < 24 -> wrap_once (Some x) = Some x).
  { intros x H. destruct (wrap_once_shift x) as [m [E [_ I]]]. now rewrite E, I. }
  assert (WS : forall x, 0 < x -> wrong_side 1 (Some x) = false).
  { intros x H. apply inside_right; [now left|unfold in_hemisphere; cbn; lra]. }
  assert (ORI : originals dualw = Ok (None, None)) by reflexivity.
  assert (CUR : current (d_o dualw) = Some wrec) by reflexivity.
  assert (RG : ((d_rec dualw <? 0) || (d_n dualw <=? d_rec dualw))%Z = false) by reflexivity.
  assert (NC2 : exists M C, normal_coord (d_o dualw) (mkArr false false true [Some 85; Some 10]) (mkArr false false true [Some 12; Some 0]) =
            Ok (out false [Some 10; Some (-102)], M, C, [Some 85; Some 10])).
  { unfold normal_coord. rewrite CUR. unfold check_side. cbn [el existsb hemi d_o dualw]. rewrite !WS by lra.
    cbn [orb bind bc2 length Nat.eqb combine mapE fst snd blat hemi]. rewrite N1, N2. cbn [bind map fst snd is0d andb isnd].
    do 2 eexists. reflexivity. }
  assert (NC1 : exists M C, normal_coord (d_o dualw) (mkArr false false true [Some 85]) (mkArr false false true [Some 12]) =
            Ok (out false [Some 10], M, C, [Some 85])).
  { unfold normal_coord. rewrite CUR. unfold check_side. cbn [el existsb hemi d_o dualw]. rewrite !WS by lra.
    cbn [orb bind bc2 map mapE fst snd blat hemi]. rewrite N1. cbn [bind map fst snd is0d andb isnd].
    do 2 eexists. reflexivity. }
  destruct NC2 as [M2 [C2 NC2]]. destruct NC1 as [M1 [C1 NC1]].
  destruct (with_boundaries_spec (A := arr * arr * arr * arr) dualw wrec werec [Some 12; Some 0] true
    (fun eb ob _ =>
       let ps := combine (combine [Some 85; Some 10] [Some 10; Some (-102)]) (combine ob eb) in
       Ok (out false (map (bound_lat 74 64 (some_bad 74 ps)) ps), out false (el M2), out false [Some 10; Some (-102)], out false (el C2)))
    dualw_paired) as [d1 [E1 _]].
  destruct (with_boundaries_spec (A := arr * arr * arr * arr) dualw wrec werec [Some 12] true
    (fun eb ob _ =>
       let ps := combine (combine [Some 85] [Some 10]) (combine ob eb) in
       Ok (out true (map (bound_lat 74 64 (some_bad 74 ps)) ps), out true (el M1), out true [Some 10], out true (el C1)))
    dualw_paired) as [d2 [E2 _]].
  change (hemi (d_o dualw)) with 1%Z in E1, E2. unfold wrapped in E1, E2. cbn [map] in E1, E2.
  assert (W12 : wrap_once (Some 12) = Some 12) by (apply W; lra). assert (W0 : wrap_once (Some 0) = Some 0) by (apply W; lra).
  rewrite !W12, !W0 in E1. rewrite !W12 in E2. unfold lats_of in E1, E2. cbn [mapE] in E1, E2.
  rewrite B1, B2, B3, B4 in E1. rewrite B1, B3 in E2. cbn [bind combine] in E1, E2.
  assert (Lt : forall x y, 0 <= x -> 0 <= y -> x < y -> abs_lt (Some x) (Some y) = true).
  { intros x y X Y H. cbn. rewrite !Rabs_pos_eq by lra. now destruct (Rlt_dec x y). }
  assert (Nlt : forall x y, 0 <= x -> 0 <= y -> y <= x -> abs_lt (Some x) (Some y) = false).
  { intros x y X Y H. cbn. rewrite !Rabs_pos_eq by lra. destruct (Rlt_dec x y); [lra|reflexivity]. }
  assert (R1 : reg_out (Some 85) (Some (1 * (90 - 25))) = false) by (apply Nlt; lra).
  assert (R2 : reg_out (Some 10) (Some (1 * (90 - 25))) = true) by (apply Lt; lra).
  assert (R3 : reg_ocb 74 (Some 10) = false).
  { unfold reg_ocb. cbn. rewrite !Rabs_pos_eq by lra. destruct (Rle_dec 74 10); [lra|reflexivity]. }
  assert (R4 : reg_ocb 74 (Some (-102)) = true).
  { unfold reg_ocb. cbn. rewrite Rabs_pos_eq, Rabs_left by lra. destruct (Rle_dec 74 (- -102)); [reflexivity|lra]. }
  assert (R5 : forall x, reg_mid (Some 85) None x = false) by reflexivity.
  assert (BAD2 : some_bad 74 [(Some 85, Some 10, (None, Some (1 * (90 - 25)))); (Some 10, Some (-102), (Some (1 * (90 - 25)), Some (1 * (90 - 25))))] = false).
  { unfold some_bad, count. cbn [filter fst snd]. rewrite R1, R2, R3, R4, R5.
    cbn [length]. apply Nat.ltb_ge. destruct (reg_mid _ _ _); cbn [length]; lia. }
  assert (BAD1 : some_bad 74 [(Some 85, Some 10, (None, Some (1 * (90 - 25))))] = true).
  { unfold some_bad, count. cbn [filter fst snd]. rewrite R1, R3, R5. reflexivity. }
  cbv zeta in E1, E2.
  exists d1. do 4 eexists. exists d2, (None : fl). do 3 eexists. exists 10.
  split; [exact dualw_paired|]. split; [unfold dual_config; cbn; repeat split; (now left) || lra|].
  split; [|split; [|split]].
  - unfold dual_normal. cbn [spread is0d isint el length Nat.eqb andb]. rewrite RG.
    match goal with |- context [normal_coord ?a ?b ?c] => rewrite (NC2 : normal_coord a b c = _) end.
    cbn [el out forallb isnan andb]. rewrite ORI. cbn [orb]. exact E1.
  - unfold dual_normal, sc. cbn [spread is0d isint el andb]. rewrite RG.
    match goal with |- context [normal_coord ?a ?b ?c] => rewrite (NC1 : normal_coord a b c = _) end.
    cbn [el out forallb isnan andb]. rewrite ORI. cbn [orb].
    etransitivity; [exact E2|]. cbn [map].
    match goal with |- context [bound_lat 74 64 (some_bad 74 ?p) ?q] =>
      assert (V : bound_lat 74 64 (some_bad 74 p) q = None);
        [replace (some_bad 74 p) with true by (symmetry; exact BAD1); unfold bound_lat; rewrite R1, R5, R3; reflexivity|rewrite V] end.
    reflexivity.
  - cbn [el out map combine nth_error]. f_equal.
    match goal with |- bound_lat 74 64 (some_bad 74 ?p) ?q = _ =>
      replace (some_bad 74 p) with false by (symmetry; exact BAD2) end.
    unfold bound_lat. rewrite R1, R5, R3. reflexivity.
  - reflexivity.
Qed.

Print Assumptions C37_dual_normal_regions_partial.
Print Assumptions C37_dual_normal_monotone_partial.
Print Assumptions C37_equator_refuted.
Print Assumptions C38_dual_round_trip.
Print Assumptions C39_dual_stores_kept_partial.
Print Assumptions C39_failed_call_refuted.
Print Assumptions C39_unset_refuted.
Print Assumptions C40_dual_revert_undefined_partial.
Print Assumptions C40_before_first_refuted.
Print Assumptions C40_past_last_refuted.
Print Assumptions C41_dual_construction_partial.
Print Assumptions C41_supplied_boundaries_refuted.
Print Assumptions C42_region_radii.
Print Assumptions C42_radii_are_scale.
Print Assumptions C81_points_independent_partial.
Print Assumptions C81_points_independent_refuted.

(** ** C84 *)
(** Everything of the dual boundary but the selected records. *)
Definition same_boundaries (d d' : dualc) : Prop :=
  let same b b' := hemi b' = hemi b /\ blat b' = blat b /\ recs b' = recs b in
  same (d_o d) (d_o d') /\ same (d_e d) (d_e d') /\ d_oi d' = d_oi d /\ d_ei d' = d_ei d /\ d_n d' = d_n d /\
  d_os d' = d_os d /\ d_es d' = d_es d.
Theorem C84_rec_ind_selects_pair :
  forall d r i j orc erc,
    (* pair number [r] consists of OCB record [i] and EAB record [j] *)
    (0 <= r < d_n d)%Z ->
    nth_error (d_oi d) (Z.to_nat r) = Some i -> nth_error (d_ei d) (Z.to_nat r) = Some j ->
    (0 <= i)%Z -> (0 <= j)%Z ->
    nth_error (recs (d_o d)) (Z.to_nat i) = Some orc -> nth_error (recs (d_e d)) (Z.to_nat j) = Some erc ->
    exists d', set_rec d r = Ok d' /\ d_rec d' = r /\ selected (d_o d') orc /\ selected (d_e d') erc /\ same_boundaries d d'.
Proof.
  intros d r i j orc erc R I J Pi Pj O E. unfold set_rec.
  destruct (r <? 0)%Z eqn:L; [apply Z.ltb_lt in L; lia|]. destruct (d_n d <=? r)%Z eqn:G; [apply Z.leb_le in G; lia|].
  assert (GO : forall l k, nth_error l (Z.to_nat r) = Some k -> getE l r = @Ok Z k).
  { intros l k H. assert (Z.to_nat r < length l)%nat by (apply nth_error_Some; congruence). unfold getE, py_get.
    assert ((0 <=? r) && (r <? Z.of_nat (length l)) = true)%Z as ->
      by (apply andb_true_intro; split; [apply Z.leb_le|apply Z.ltb_lt]; lia). now rewrite H. }
  rewrite (GO _ _ I), (GO _ _ J). cbn [bind]. eexists. split; [reflexivity|]. cbn. split; [reflexivity|].
  assert (S : forall l k (x : rec), nth_error l (Z.to_nat k) = Some x -> (0 <= k)%Z -> (0 <= k < Z.of_nat (length l))%Z).
  { intros l k x H K. assert (Z.to_nat k < length l)%nat by (apply nth_error_Some; congruence). lia. }
  split; [split; [cbn; eapply S; eassumption|exact O]|]. split; [split; [cbn; eapply S; eassumption|exact E]|].
  repeat split.
Qed.
Theorem C84_out_of_range_partial :
  (* missing: indices beyond the number of pairs, C84_beyond_last_refuted *)
  forall d r, (r < 0)%Z \/ r = d_n d ->
    exists d', set_rec d r = Ok d' /\ d_rec d' = r /\ none_selected (d_o d') /\ none_selected (d_e d') /\ same_boundaries d d'.
Proof.
  intros d r H. unfold set_rec. destruct (r <? 0)%Z eqn:L.
  - apply Z.ltb_lt in L. eexists. split; [reflexivity|]. cbn. split; [reflexivity|]. split; [now left|]. split; [now left|]. repeat split.
  - apply Z.ltb_ge in L. destruct H as [H|H]; [lia|]. destruct (d_n d <=? r)%Z eqn:G; [|apply Z.leb_gt in G; lia].
    eexists. split; [reflexivity|]. cbn. split; [reflexivity|]. unfold zlen, none_selected. cbn.
    split; [right; lia|]. split; [right; lia|]. repeat split.
Qed.
(** Two past the end selects the last records again. *)
Theorem C84_beyond_last_refuted :
  exists d', set_rec dual1 2 = Ok d' /\ selected (d_o d') rec1 /\ selected (d_e d') erec1.
Proof. eexists. split; [reflexivity|]. split; (split; [cbn; lia|reflexivity]). Qed.
(** Two pairs over differently indexed records. *)
Example C84_case :
  let d := mkDual (mkBnd 1 74 [erec1; rec1] 0) (mkBnd 1 64 [rec1; rec1; erec1] 0) [0; 1]%Z [1; 2]%Z 2 0 None None in
  exists d', set_rec d 1 = Ok d' /\ selected (d_o d') rec1 /\ selected (d_e d') erec1.
Proof. eexists. split; [reflexivity|]. split; (split; [cbn; lia|reflexivity]). Qed.
Print Assumptions C84_rec_ind_selects_pair.
Print Assumptions C84_out_of_range_partial.
Print Assumptions C84_beyond_last_refuted.
