(** C85-C90: arrays of vectors, scaled components, geographic vectors, repeated
    calls. *)
From Coq Require Import Reals ZArith List Bool Lia Lra.
From Verif Require Import PyBase RangeModel RangeSpec RangeProofs CoordModel CoordSpec CoordProofs CoordProofs2 DualCoordModel
  VectorModel VectorSpec VectorProofs VectorProofs2 PropertiesCoord PropertiesVector
  ScalingModel ScalingProofs ScalingProofs2 ScalingProofs3 ScalingProofs4 ScalingProofs5 ScalingSpec PropertiesScaling.
Import ListNotations.
Open Scope R_scope.

(** ** C85 *)
Theorem C85_arrays_elementwise_partial :
  (* missing: vectors without horizontal part outside the hemisphere, and vectors
     outside the hemisphere of matched records (C85_matched_refuted) *)
  (* several vectors, one boundary record *)
  (forall b ind ds,
     loaded_at b ->
     (forall d, In d ds -> (exists rc c, usable b ind d rc c) \/
                           (outside (CoordModel.hemi b) (Some (g_lat d)) /\ ~ (g_n d = 0 /\ g_e d = 0))) ->
     (exists d rc c, In d ds /\ usable b ind d rc c) ->
     exists vs, set_ocb_array b ind None None (map given ds) = Ok (vs, with_rind b ind) /\
       Forall2 (fun d v => exists w, set_ocb b ind None None (given d) = Ok (w, with_rind b ind) /\
                  normalised v = normalised w /\ w_olat v = w_olat w /\ w_omlt v = w_omlt w /\
                  (in_hemisphere (CoordModel.hemi b) (g_lat d) -> v = w)) ds vs) /\
  (* one boundary record for each vector *)
  (forall b qs,
     loaded_at b -> qs <> [] ->
     (forall q, In q qs -> exists rc c, usable b (fst q) (snd q) rc c) ->
     exists vs b', set_ocb_matched b (map fst qs) None None (map (fun q => given (snd q)) qs) = Ok (vs, b') /\
       Forall2 (fun q v => set_ocb b (fst q) None None (given (snd q)) = Ok (v, with_rind b (fst q))) qs vs).
Proof.
  split.
  - intros b ind ds L M EX. destruct (array_mixed b ind None None ds L) as (vs & rc & N & E & F).
    + apply Forall_forall. intros d D. destruct (M d D) as [U|[O _]]; [now left|right; exact O].
    + exact EX.
    + exists vs. split; [exact E|]. destruct EX as (d0 & rc0 & c0 & _ & U0). destruct U0 as ((H & _) & _).
      assert (M' : Forall (fun d => (exists rc c, usable b ind d rc c) \/ (outside (CoordModel.hemi b) (Some (g_lat d)) /\ ~ (g_n d = 0 /\ g_e d = 0))) ds)
        by (now apply Forall_forall).
      clear M E N. induction F as [|d v ds vs [DI DO] F IH]; [constructor|]. inversion M' as [|x l MX ML]; subst. constructor; [|now apply IH]. cbn [choose_sf] in *.
      destruct MX as [(rc' & c & U)|[O NZ]].
      * destruct (scalar_spec b ind d rc' c L U) as (w & E & W). specialize (DI (usable_inside _ _ _ _ _ U)).
        pose proof (item_done_unique _ _ _ _ _ DI W) as ->. exists w. auto.
      * exists (given d). split; [now apply scalar_other|]. destruct (DO O) as (r & FW & R). rewrite (R NZ) in FW. cbn in FW. subst v.
        split; [reflexivity|]. split; [reflexivity|]. split; [reflexivity|]. intros I. exfalso. now apply O.
  - intros b qs L NE U. destruct (matched_spec b None None qs NE) as (vs & E & F); [now apply Forall_forall|].
    exists vs. eexists. split; [exact E|].
    assert (U' : Forall (fun q : item => exists rc c, usable b (fst q) (snd q) rc c) qs) by (now apply Forall_forall).
    clear E U NE. induction F as [|q v qs vs D F IH]; [constructor|]. inversion U' as [|x l (rc & c & UX) UL]; subst. constructor; [|now apply IH].
    destruct (scalar_spec b (fst q) (snd q) rc c L UX) as (w & E & W). cbn [choose_sf] in D. destruct q as [i d]. cbn [fst snd] in *.
    now rewrite (item_done_unique _ _ _ _ _ D W).
Qed.

(** A vector in the other hemisphere. *)
Definition southern : datum := mkDatum (-60) 0 1 0 0.
Lemma southern_other : other_side bnd1 southern.
Proof. unfold other_side, in_hemisphere. cbn. lra. Qed.
Lemma bnd1_hemi : (CoordModel.hemi bnd1 = 1 \/ CoordModel.hemi bnd1 = -1)%Z. Proof. now left. Qed.

Theorem C85_matched_refuted :
  exists b qs q vs v b' w b'',
    set_ocb_matched b (map fst qs) None None (map (fun q => given (snd q)) qs) = Ok (vs, b') /\
    nth_error qs 1 = Some q /\ nth_error vs 1 = Some v /\
    set_ocb b (fst q) None None (given (snd q)) = Ok (w, b'') /\
    outside (CoordModel.hemi b) (Some (g_lat (snd q))) /\
    normalised v = (Some 1, Some 0, Some 0) /\ normalised w = (None, None, None).
Proof.
  destruct (usable_coords _ _ _ _ _ centre_usable) as (ol & om & _ & E2 & _). destruct (usable_good _ _ _ _ _ centre_usable) as (G & R & _).
  destruct (work_exists rec1 (after_coords at_centre ol om 2) R) as (k1 & K1 & K2 & K3); [now apply good_put|].
  destruct (work_exists rec1 (given southern) R) as (k2 & J1 & J2 & J3).
  { exists (-60), 0, 1, 0, 0. repeat (split; [reflexivity|]). lra. }
  destruct (finish_spec bnd1 None [k1; k2]) as (vs & E & F); [discriminate|constructor; [exact K3|constructor; [exact J3|constructor]]|].
  inversion F as [|x v1 l l' D1 F1]; subst. inversion F1 as [|x v2 m m' D2 F2]; subst. inversion F2; subst.
  exists bnd1, [(0%Z, at_centre); (0%Z, southern)], (0%Z, southern), [v1; v2], v2. eexists. exists (given southern). eexists.
  assert (W : wrong_side 1 (Some (-60)) = true) by (apply wrong_side_outside; [now left|]; unfold outside, in_hemisphere; lra).
  split; [|split; [reflexivity|split; [reflexivity|split; [|split; [|split]]]]].
  - unfold set_ocb_matched. cbn [map fst snd mapE]. change (getE (recs bnd1) 0) with (Ok rec1). cbn [bind]. cbv zeta.
    assert (no_coords [given at_centre; given southern] = true) as -> by reflexivity. cbn [combine mapE fst snd].
    rewrite E2. cbn [bind].
    assert (coords_of bnd1 0 (given southern) = Ok (given southern)) as ->.
    { unfold coords_of, normal_coord. change (current (at_rec bnd1 0)) with (Some rec1). cbv iota. cbn [at_rec CoordModel.hemi bnd1 given fresh w_lat w_lt southern g_lat g_lt]. unfold check_side. cbn [sc0 el existsb forallb]. rewrite W. reflexivity. }
    cbn [bind]. assert (no_coords [put_coord (given at_centre) (Some (g_lat at_centre)) (Some ol) (Some om) (Some 2); given southern] = false) as -> by reflexivity.
    cbn [map choose_sf] in E |- *. rewrite K1, K2, J1, J2 in E. unfold after_coords in E. rewrite E. reflexivity.
  - apply scalar_other; [exact bnd1_hemi|exact loaded1|exact southern_other].
  - exact southern_other.
  - destruct D2 as (n & e & z & B & V). rewrite J1, J2 in B, V. cbn [given fresh w_lt w_lat w_n w_e w_z southern g_lat g_lt g_n g_e g_z phic rcent rec1] in B.
    rewrite (to_boundary_aligned 0 (-60) 1 0 0 0 4 0 (or_introl eq_refl) same0) in B by lra.
    destruct (Req_EM_T (-60) (90 - 4)); [lra|]. rewrite V. cbn [choose_sf scaled normalised put_out w_on w_oe w_oz].
    injection B as <- <- <-. reflexivity.
  - reflexivity.
Qed.
Example C85_case : loaded_at bnd1 /\ usable bnd1 0 at_centre rec1 2 /\ outside (CoordModel.hemi bnd1) (Some (g_lat southern)) /\
  ~ (g_n southern = 0 /\ g_e southern = 0).
Proof. split; [exact loaded1|]. split; [exact centre_usable|]. split; [exact southern_other|]. cbn. lra. Qed.
Print Assumptions C85_arrays_elementwise_partial.
Print Assumptions C85_matched_refuted.

(** ** C86 *)
(** The value that the scaling function makes of the number [x]. *)
Definition rescale (sf : option sfun) (x u s : R) : fl :=
  match sf with Some f => f (Some x) (Some u) (Some s) | None => Some x end.

(** The normalised vector is the given one, seen along the direction of the pole of
    the boundary and rescaled from the radius of the boundary to that of the
    reference circle. *)
Definition normalised_along (b : bnd) (sf : option sfun) (rc : rec) (c : R) (d : datum) (v : vel) : Prop :=
  let x := place (g_lat d) (g_lt d) in
  let t := towards x (place (90 - rcent rc) (phic rc / 15)) in
  let u := rr rc + c in
  let s := 90 - Rabs (blat b) in
  0 < norm3 t /\
  exists n e z, seen_along x t (horizontal (g_lat d) (g_lt d) (g_n d) (g_e d)) n e /\
    (~ (g_n d = 0 /\ g_e d = 0) -> z = g_z d) /\
    normalised v = (rescale sf n u s, rescale sf e u s, rescale sf z u s) /\
    radii v = (Some (Some u), Some (Some s)).

Lemma done_along b sf ind d rc c v : usable b ind d rc c -> off_meridian (g_lt d) (phic rc / 15) -> item_done b sf (ind, d) v ->
  normalised_along b sf rc c d v.
Proof.
  intros U O (rc' & c' & ol & om & U' & _ & (n & e & z & E & V)). cbn [fst snd] in *.
  assert (rc' = rc) as -> by (destruct U as (_ & X & _); destruct U' as (_ & Y & _); congruence).
  assert (c' = c) as -> by (destruct U as (_ & _ & _ & X & _); destruct U' as (_ & _ & _ & Y & _); congruence).
  assert (LB : -90 < g_lat d < 90 /\ 0 <= rcent rc < 90).
  { destruct U as ((H & _) & _ & L & _ & _ & R). split; [|exact R]. destruct H as [H|H]; rewrite H in L; lra. }
  destruct LB as [LB RB].
  destruct (C51_components_along_pole_direction (g_lt d) (g_lat d) (g_n d) (g_e d) (g_z d) (phic rc) (rcent rc) LB RB O) as (n' & e' & z' & E' & S & P & Z).
  cbn [after_coords put_coord given fresh w_lt w_lat w_n w_e w_z] in E. rewrite E' in E. injection E as <- <- <-.
  split; [exact P|]. exists n', e', z'. split; [exact S|]. split; [exact Z|]. rewrite V.
  cbn [after_coords put_coord w_rc fmap option_map]. split; [|reflexivity]. unfold normalised, put_out. cbn [w_on w_oe w_oz]. destruct sf; reflexivity.
Qed.

Theorem C86_scaled_components_partial :
  (* missing: vectors on the meridian of the pole (C52), and scalars with a scaling
     function, whose components are not rotated (C54_scaled_refuted) *)
  (* scalars, no scaling *)
  (forall b ind d rc c, loaded_at b -> usable b ind d rc c -> off_meridian (g_lt d) (phic rc / 15) ->
     exists v, set_ocb b ind None None (given d) = Ok (v, with_rind b ind) /\ normalised_along b None rc c d v) /\
  (* arrays, any scaling; the vector's own scaling function goes first *)
  (forall b ind own arg ds, loaded_at b ->
     (forall d, In d ds -> (exists rc c, usable b ind d rc c) \/ outside (CoordModel.hemi b) (Some (g_lat d))) ->
     (exists d rc c, In d ds /\ usable b ind d rc c) ->
     exists vs, set_ocb_array b ind own arg (map given ds) = Ok (vs, with_rind b ind) /\
       Forall2 (fun d v => forall rc c, usable b ind d rc c -> off_meridian (g_lt d) (phic rc / 15) ->
                  normalised_along b (match own with Some f => Some f | None => arg end) rc c d v) ds vs) /\
  (forall b own arg qs, qs <> [] ->
     (forall q, In q qs -> exists rc c, usable b (fst q) (snd q) rc c) ->
     exists vs b', set_ocb_matched b (map fst qs) own arg (map (fun q => given (snd q)) qs) = Ok (vs, b') /\
       Forall2 (fun q v => forall rc c, usable b (fst q) (snd q) rc c -> off_meridian (g_lt (snd q)) (phic rc / 15) ->
                  normalised_along b (match own with Some f => Some f | None => arg end) rc c (snd q) v) qs vs).
Proof.
  split; [|split].
  - intros b ind d rc c L U O. destruct (scalar_spec b ind d rc c L U) as (v & E & D). exists v. split; [exact E|]. eapply done_along; eassumption.
  - intros b ind own arg ds L M EX. destruct (array_mixed b ind own arg ds L) as (vs & rc & N & E & F).
    + apply Forall_forall. intros d D. destruct (M d D) as [U|O]; [now left|right; exact O].
    + exact EX.
    + exists vs. split; [exact E|]. revert F. apply Forall2_imp. intros d v [DI _] rc' c U O.
      eapply done_along; [exact U|exact O|]. apply DI. eapply usable_inside. exact U.
  - intros b own arg qs NE U. destruct (matched_spec b own arg qs NE) as (vs & E & F); [now apply Forall_forall|].
    exists vs. eexists. split; [exact E|]. revert F. apply Forall2_imp. intros [i d] v D rc c UX O. eapply done_along; [exact UX|exact O|exact D].
Qed.

(** Lengths under [normal_evar]. *)
Lemma to_boundary_length lt lat n e z phi r : -90 < lat < 90 -> 0 <= r < 90 -> ~ (n = 0 /\ e = 0) ->
  exists n' e' z', vector_to_boundary (Some lt) (Some lat) (Some n) (Some e) (Some z) (Some phi) (Some r) = Ok (Some n', Some e', Some z') /\
    n' ^ 2 + e' ^ 2 + z' ^ 2 = n ^ 2 + e ^ 2 + z ^ 2.
Proof.
  intros L Hr NZ. destruct (pole_loc_spec phi r) as [b (E & _)].
  destruct (angle_total lt lat b (90 - r) L ltac:(lra)) as [A (E1 & _ & A1)].
  destruct (pole_quad_total (Some lt) (Some b) (Some A)) as [q Q].
  destruct (C49_magnitude_preserved_partial lt lat n e z (define_vect_quadrants (Some n) (Some e)) b (90 - r) A q A1) as (n' & e' & z' & X & _ & Y); [now right|now right|].
  exists n', e', z'. split.
  - unfold vector_to_boundary. rewrite E. cbn [bind fst snd]. rewrite E1. cbn [bind]. rewrite Q. cbn [bind]. exact X.
  - apply Y. left. exact NZ.
Qed.
Lemma done_length b sf ind d rc c v k : usable b ind d rc c -> ~ (g_n d = 0 /\ g_e d = 0) ->
  (forall x, rescale sf x (rr rc + c) (90 - Rabs (blat b)) = Some (x * k)) -> item_done b sf (ind, d) v ->
  w_omag v = Some (length3 (g_n d) (g_e d) (g_z d) * Rabs k).
Proof.
  intros U NZ K (rc' & c' & ol & om & U' & _ & (n & e & z & E & V)). cbn [fst snd] in *.
  assert (rc' = rc) as -> by (destruct U as (_ & X & _); destruct U' as (_ & Y & _); congruence).
  assert (c' = c) as -> by (destruct U as (_ & _ & _ & X & _); destruct U' as (_ & _ & _ & Y & _); congruence).
  assert (LB : -90 < g_lat d < 90 /\ 0 <= rcent rc < 90).
  { destruct U as ((H & _) & _ & L & _ & _ & R). split; [|exact R]. destruct H as [H|H]; rewrite H in L; lra. }
  destruct LB as [LB RB]. destruct (to_boundary_length (g_lt d) (g_lat d) (g_n d) (g_e d) (g_z d) (phic rc) (rcent rc) LB RB NZ) as (n' & e' & z' & E' & S).
  cbn [after_coords put_coord given fresh w_lt w_lat w_n w_e w_z] in E. rewrite E' in E. injection E as <- <- <-.
  rewrite V. cbn [after_coords put_coord w_rc fmap option_map].
  assert (SC : forall x, scaled sf (Some x) (Some (rr rc + c)) (Some (90 - Rabs (blat b))) = Some (x * k)) by (intros x; rewrite <- K; destruct sf; reflexivity).
  change (fmap (fun c0 : R => rr rc + c0) (Some c)) with (Some (rr rc + c)).
  rewrite !SC. unfold put_out. cbn [w_omag]. apply f_equal. unfold length3. rewrite <- S, <- (sqrt_Rsqr_abs k), <- sqrt_mult.
  - f_equal. unfold Rsqr. ring.
  - pose proof (pow2_ge_0 n'). pose proof (pow2_ge_0 e'). pose proof (pow2_ge_0 z'). lra.
  - apply Rle_0_sqr.
Qed.

Theorem C86_magnitude_partial :
  (* missing: vectors without horizontal part (C49_vertical_kept_refuted) *)
  forall b ind d rc c, loaded_at b -> usable b ind d rc c -> ~ (g_n d = 0 /\ g_e d = 0) -> Rabs (blat b) < 90 ->
    let len := length3 (g_n d) (g_e d) (g_z d) in
    let ratio := (rr rc + c) / (90 - Rabs (blat b)) in
    (exists v b', set_ocb b ind None None (given d) = Ok (v, b') /\ w_omag v = Some len) /\
    (exists v b', set_ocb_array b ind (Some normal_evar) None [given d] = Ok ([v], b') /\ w_omag v = Some (len * Rabs ratio)) /\
    (exists v b', set_ocb_array b ind (Some normal_curl_evar) None [given d] = Ok ([v], b') /\ w_omag v = Some (len * ratio ^ 2)).
Proof.
  intros b ind d rc c L U NZ B len ratio. assert (S : 90 - Rabs (blat b) <> 0) by lra.
  destruct (C55_scaling_laws (rr rc + c) (90 - Rabs (blat b)) S) as (S1 & S2 & _).
  assert (ARR : forall f, exists v b', set_ocb_array b ind (Some f) None [given d] = Ok ([v], b') /\ item_done b (Some f) (ind, d) v).
  { intros f. destruct (array_spec b ind (Some f) None [d] L) as (vs & E & F); [discriminate|constructor; [exists rc, c; exact U|constructor]|].
    inversion F as [|x v l l' D F']; subst. inversion F'; subst. exists v. eexists. split; [exact E|exact D]. }
  split; [|split].
  - destruct (scalar_spec b ind d rc c L U) as (v & E & D). exists v. eexists. split; [exact E|].
    rewrite (done_length b None ind d rc c v 1 U NZ); [|intros x; cbn; f_equal; ring|exact D]. rewrite Rabs_R1. unfold len. f_equal. ring.
  - destruct (ARR normal_evar) as (v & b' & E & D). exists v, b'. split; [exact E|]. eapply done_length; [exact U|exact NZ| |exact D]. intros x. apply S1.
  - destruct (ARR normal_curl_evar) as (v & b' & E & D). exists v, b'. split; [exact E|]. rewrite (done_length b (Some normal_curl_evar) ind d rc c v (ratio ^ 2) U NZ); [|intros x; apply S2|exact D].
    rewrite Rabs_pos_eq; [reflexivity|apply pow2_ge_0].
Qed.
Definition dawn : datum := mkDatum 72 6 3 (-4) 5.
Example C86_case : usable bnd1 0 dawn rec1 2 /\ off_meridian (g_lt dawn) (phic rec1 / 15) /\ ~ (g_n dawn = 0 /\ g_e dawn = 0) /\
  Rabs (blat bnd1) < 90.
Proof.
  split; [unfold usable; cbn; repeat split; try lia; try lra; auto|]. split; [|split; [cbn; lra|cbn; rewrite Rabs_pos_eq; lra]].
  cbn. intros [k K]. assert (E : IZR (12 * k - 6) = IZR 0) by (rewrite minus_IZR, mult_IZR; lra). apply eq_IZR in E. lia.
Qed.
Print Assumptions C86_scaled_components_partial.
Print Assumptions C86_magnitude_partial.

(** ** C87 *)
Lemma adjust_elsewhere lt1 lat1 lt2 lat2 n e z vq plt plat A pq : A <> 0 -> A <> 180 -> pq <> 0%Z ->
  adjust_vector (mkVin lt1 lat1 n e z vq plt plat (Some A) pq) = adjust_vector (mkVin lt2 lat2 n e z vq plt plat (Some A) pq).
Proof.
  intros N0 N1 P. unfold adjust_vector, special, is_ns, is_zero. cbn [v_n v_e v_z v_q p_ang p_q v_lt p_lt v_lat p_lat feq].
  destruct (Req_EM_T A 0); [contradiction|]. destruct (Req_EM_T A 180); [contradiction|]. cbn [orb].
  apply Z.eqb_neq in P. rewrite P. reflexivity.
Qed.

(** Angles that are 0 or 180 only if the destination pole lies on the meridian. *)
Lemma angle_off a v b p A : off_meridian a b -> -90 < v < 90 -> -90 < p < 90 -> 0 <= A <= 180 ->
  cos (deg A) * sqrt (un a v b p ^ 2 + we a v b p ^ 2) = IZR (sgn p) * un a v b p -> IZR (sgn p) * IZR (sgn p) = 1 -> A <> 0 /\ A <> 180.
Proof.
  intros O V P A0 C SS. assert (WN : we a v b p <> 0).
  { unfold we. intros Z. apply Rmult_integral in Z. destruct Z as [Z|Z]; [|now apply off_meridian_sin in O].
    assert (0 < cos (deg p)) by (apply cos_deg_pos; lra). lra. }
  pose proof (un_we_pos a v b p O V ltac:(lra)) as Y. set (y := sqrt _) in *. set (U := un a v b p) in *. set (W := we a v b p) in *.
  assert (YY : y * y = U ^ 2 + W ^ 2) by (apply sqrt_sqrt; lra).
  assert (W2 : 0 < W * W) by (apply Rsqr_pos_lt in WN; exact WN).
  assert (K : forall k, k * k = 1 -> k * y = IZR (sgn p) * U -> False).
  { intros k K1 K2. assert (y * y = U * U).
    { transitivity ((k * k) * (y * y)); [rewrite K1; ring|]. transitivity ((k * y) * (k * y)); [ring|]. rewrite K2.
      transitivity ((IZR (sgn p) * IZR (sgn p)) * (U * U)); [ring|]. rewrite SS. ring. }
    simpl in YY. lra. }
  split; intros Z; subst A.
  - apply (K (cos (deg 0))); [|exact C]. replace (deg 0) with 0 by (unfold deg; field). rewrite cos_0. ring.
  - apply (K (cos (deg 180))); [|exact C]. replace (deg 180) with PI by (unfold deg; field). rewrite cos_PI. ring.
Qed.

Theorem C87_geographic_vectors_partial :
  (* missing: southern poles (C87_southern_refuted) and vectors on the meridian of the
     magnetic pole (C87_meridian_refuted) *)
  forall geo_lt geo_lat mag_lt mag_lat n e z pole_slt pole_glat,
    -90 < geo_lat < 90 -> 0 < pole_glat < 90 -> off_meridian geo_lt pole_slt ->
    let x := place geo_lat geo_lt in
    let t := towards x (place pole_glat pole_slt) in
    exists n' e' z',
      vect_to_mag (Some geo_lt) (Some geo_lat) mag_lt mag_lat (Some n) (Some e) (Some z) (Some pole_slt) (Some pole_glat)
        = Ok (Some n', Some e', Some z') /\
      seen_along x t (horizontal geo_lat geo_lt n e) n' e' /\ 0 < norm3 t /\ (~ (n = 0 /\ e = 0) -> z' = z).
Proof.
  intros a v ml mt n e z b p V P O x t.
  destruct (to_boundary_general a v n e z b p O V ltac:(lra)) as (A & pq & n' & e' & z' & G1 & G2 & G3 & G4 & G5 & G6).
  assert (NP : p <> 0) by lra. assert (P' : -90 <= p <= 90) by lra.
  destruct (pole_angle_general a v b p O V P' NP) as [A' (E1 & _ & A1 & A2)]. rewrite G1 in E1. injection E1 as <-.
  assert (SG : sgn p = 1%Z) by (unfold sgn; destruct (Rlt_dec 0 p); [reflexivity|lra]).
  destruct (angle_off a v b p A O V ltac:(lra) A1 A2) as [N0 N1]; [rewrite SG; lra|].
  exists n', e', z'. split.
  - unfold vect_to_mag. rewrite G1. cbn [bind]. rewrite G2. cbn [bind]. rewrite <- G3. apply adjust_elsewhere; try assumption.
    intros ->. pose proof (quad_zero_or (mkVin (Some a) (Some v) (Some n) (Some e) (Some z) 0 (Some b) (Some p) (Some A) 0) 0%Z G2) as Q.
    assert (quad_ok 0 = true); [|discriminate]. apply Q. unfold defined. cbn. repeat split; discriminate.
  - split; [now apply seen_along_intro|]. split; [|intros N; destruct G6 as [G6|G6]; [exact G6|contradiction]].
    unfold t, x. rewrite towards_dest, norm_frame. apply sqrt_lt_R0. apply un_we_pos; [exact O|exact V|lra].
Qed.

(** The opposite direction. *)
Definition opposite (t : vec3) : vec3 := lin (-1) t 0 t.
Lemma norm_opposite t : norm3 (opposite t) = norm3 t.
Proof. destruct t as [[t1 t2] t3]. unfold norm3, opposite, dot, lin. cbn. f_equal. ring. Qed.
Lemma dot_opposite v t : dot v (opposite t) = - dot v t.
Proof. destruct t as [[t1 t2] t3]. unfold opposite, dot, lin. cbn. ring. Qed.

Theorem C87_southern_refuted :
  (* a southern magnetic pole: the result is neither along nor against its direction *)
  exists geo_lt geo_lat n e pole_slt pole_glat n' e',
    -90 < geo_lat < 0 /\ -90 < pole_glat < 0 /\ off_meridian geo_lt pole_slt /\
    (forall mag_lt mag_lat,
       vect_to_mag (Some geo_lt) (Some geo_lat) mag_lt mag_lat (Some n) (Some e) (Some 0) (Some pole_slt) (Some pole_glat)
         = Ok (Some n', Some e', Some 0)) /\
    let x := place geo_lat geo_lt in
    let t := towards x (place pole_glat pole_slt) in
    ~ seen_along x t (horizontal geo_lat geo_lt n e) n' e' /\
    ~ seen_along x (opposite t) (horizontal geo_lat geo_lt n e) n' e'.
Proof.
  assert (O : off_meridian 0 6).
  { intros [k K]. assert (E : IZR (12 * k + 6) = IZR 0) by (rewrite plus_IZR, mult_IZR; lra). apply eq_IZR in E. lia. }
  assert (V : -90 < -60 < 90) by lra. assert (P : -90 <= -80 <= 90) by lra.
  destruct (pole_angle_general 0 (-60) 6 (-80) O V P ltac:(lra)) as [A (E1 & _ & A1 & A2)].
  assert (SG : sgn (-80) = (-1)%Z) by (unfold sgn; destruct (Rlt_dec 0 (-80)); [lra|destruct (Rlt_dec (-80) 0); [reflexivity|lra]]).
  destruct (angle_off 0 (-60) 6 (-80) A O V ltac:(lra) A1 A2) as [N0 N1]; [rewrite SG; lra|]. rewrite SG in A2.
  pose proof (un_we_pos 0 (-60) 6 (-80) O V P) as Y0. set (y := sqrt _) in *. assert (Y : 0 < y) by (apply sqrt_lt_R0; exact Y0).
  assert (YY : y * y = un 0 (-60) 6 (-80) ^ 2 + we 0 (-60) 6 (-80) ^ 2) by (apply sqrt_sqrt; lra).
  assert (H6 : hr (6 - 0) = PI / 2) by (unfold hr; field).
  assert (UN : un 0 (-60) 6 (-80) < 0).
  { unfold un. rewrite H6, cos_PI2. assert (0 < cos (deg (-60))) by (apply cos_deg_pos; lra).
    assert (sin (deg (-80)) < 0); [|nra]. replace (deg (-80)) with (- deg 80) by (unfold deg; field). rewrite sin_neg.
    assert (0 < sin (deg 80)); [|lra]. pose proof PI_RGT_0. apply sin_gt_0; unfold deg; lra. }
  assert (WP : 0 < we 0 (-60) 6 (-80)).
  { unfold we. rewrite H6, sin_PI2. assert (0 < cos (deg (-80))) by (apply cos_deg_pos; lra). lra. }
  assert (HE : hours_east 0 6 6) by (split; [exists 0%Z; lra|lra]).
  assert (IE : is_east 6 = true) by (unfold is_east; destruct (Rlt_dec 6 12); [reflexivity|lra]).
  destruct (rotated_towards 1 A 1 1 (- un 0 (-60) 6 (-80)) (we 0 (-60) 6 (-80)) y Y) as [R1 R2]; [rewrite YY; ring|left; lra|exact A1|lra|].
  set (r := rotated 1 A 1 1) in *.
  exists 0, (-60), 1, 1, 6, (-80), (fst r), (snd r). repeat (split; [first [lra|exact O]|]). split.
  - intros ml mt. unfold vect_to_mag. rewrite E1. cbn [bind]. rewrite (pole_quad_pq 0 6 A 6 HE). cbn [bind].
    rewrite (adjust_elsewhere ml mt (Some 0) (Some (-60))); [|exact N0|exact N1|].
    2:{ intros Z. pose proof (pq_range A (is_east 6)) as Q. rewrite Z in Q. discriminate. }
    rewrite (adjust_general 0 (Some (-60)) 1 1 (Some 0) _ 6 (Some (-80)) A _ 6).
    + rewrite IE. reflexivity.
    + split; right; [reflexivity|]. cbn [v_lt p_lt p_ang p_q]. now apply pole_quad_pq.
    + exact HE.
    + lra.
    + lra.
  - cbv zeta. unfold seen_along. rewrite norm_opposite, !dot_opposite. unfold horizontal. rewrite towards_dest, norm_frame, dot_frame. fold y. split.
    + intros [S _]. rewrite R1 in S. lra.
    + intros [S _]. rewrite R1 in S. lra.
Qed.

Theorem C87_meridian_refuted :
  (* on the meridian of the magnetic pole and south of it, the vector is reversed if
     its magnetic latitude exceeds the geographic latitude of the pole *)
  exists lt mag_lt geo_lat pole_glat mag_lat,
    0 < geo_lat < pole_glat /\ pole_glat < mag_lat < 90 /\
    vect_to_mag (Some lt) (Some geo_lat) (Some mag_lt) (Some mag_lat) (Some 1) (Some 0) (Some 0) (Some lt) (Some pole_glat)
      = Ok (Some (-1), Some 0, Some 0) /\
    let x := place geo_lat lt in
    seen_along x (towards x (place pole_glat lt)) (horizontal geo_lat lt 1 0) 1 0.
Proof.
  exists 0, 0, 80, 83, 87. split; [lra|]. split; [lra|].
  assert (K : shifted 24 (0 - 0) 0) by (exists 0%Z; lra).
  split.
  - destruct (aligned_angle 0 80 0 83 0 (or_introl eq_refl) K) as [E _]. unfold vect_to_mag. rewrite E. cbn [bind].
    match goal with |- context [define_pole_quadrants ?a ?b ?c] => destruct (pole_quad_total a b c) as [q Q]; rewrite Q end. cbn [bind].
    rewrite !Rabs_pos_eq by lra. destruct (Rlt_dec 83 80); [lra|]. destruct (Req_EM_T 0 0); [|lra].
    rewrite special_at by lra. apply f_equal. apply f_equal2; [apply f_equal2|]; apply f_equal; ring.
  - cbv zeta. apply seen_along_intro.
    + assert (we 0 80 0 83 = 0) as ->. { unfold we. replace (hr (0 - 0)) with 0 by (unfold hr; field). rewrite sin_0. ring. }
      replace (un 0 80 0 83 ^ 2 + 0 ^ 2) with (Rsqr (un 0 80 0 83)) by (unfold Rsqr; ring). rewrite sqrt_Rsqr; [ring|].
      unfold un. replace (hr (0 - 0)) with 0 by (unfold hr; field). rewrite cos_0, Rmult_1_r.
      replace (cos (deg 80) * sin (deg 83) - sin (deg 80) * cos (deg 83)) with (sin (deg 83 - deg 80)) by (rewrite sin_minus; ring).
      pose proof PI_RGT_0. apply sin_ge_0; unfold deg; lra.
    + assert (we 0 80 0 83 = 0) as ->. { unfold we. replace (hr (0 - 0)) with 0 by (unfold hr; field). rewrite sin_0. ring. } ring.
Qed.
Example C87_case : -90 < 65 < 90 /\ 0 < 83 < 90 /\ off_meridian 3 9.
Proof. split; [lra|]. split; [lra|]. intros [k K]. assert (E : IZR (12 * k + 6) = IZR 0) by (rewrite plus_IZR, mult_IZR; lra). apply eq_IZR in E. lia. Qed.
Print Assumptions C87_geographic_vectors_partial.
Print Assumptions C87_southern_refuted.
Print Assumptions C87_meridian_refuted.

(** ** C88 *)
(** All three boundary coordinates are numbers. *)
Definition has_all_coords (v : vel) : Prop := w_olat v <> None /\ w_omlt v <> None /\ w_rc v <> None.
Lemma has_all_no v : has_all_coords v <-> no_coords [v] = false.
Proof.
  rewrite no_coords1. unfold has_all_coords. destruct (w_olat v), (w_omlt v), (w_rc v); cbn; split; try congruence; try tauto; intros; repeat split; discriminate.
Qed.

Theorem C88_coordinates_from_boundary_partial :
  (* missing: a vector that already has coordinates keeps them and does not select the
     record, whatever the boundary (C88_other_boundary_refuted) *)
  forall b ind own arg v v' b',
    set_ocb b ind own arg v = Ok (v', b') ->
    (~ has_all_coords v ->
       b' = with_rind b ind /\
       exists ol om rc after,
         normal_coord (with_rind b ind) (sc (w_lat v)) (sc (w_lt v)) = Ok (out true [ol], out true [om], out true [rc], after) /\
         coordinates v' = (ol, om, rc)) /\
    (has_all_coords v -> b' = b /\ coordinates v' = coordinates v).
Proof.
  intros b ind own arg v v' b' H. destruct (set_ocb_inv _ _ _ _ _ _ _ H) as (r0 & v1 & _ & E1 & EB & E2).
  assert (C : coordinates v' = coordinates v1).
  { destruct (no_coords [v1]); [now subst v'|]. destruct E2 as (rc & _ & F). destruct (finish1_kept _ _ _ _ _ F) as [_ (A & B & D)].
    unfold coordinates. congruence. }
  split; intros Q.
  - assert (N : no_coords [v] = true) by (destruct (no_coords [v]) eqn:N; [reflexivity|]; now apply has_all_no in N).
    rewrite N in *. split; [exact EB|]. destruct (coords_of_spec b ind v) as (ol & om & rc & E & E'). rewrite E' in E1. injection E1 as <-.
    exists ol, om, rc, [w_lat v]. split; [exact E|]. rewrite C. reflexivity.
  - apply has_all_no in Q. rewrite Q in *. injection E1 as <-. auto.
Qed.

Definition bnd80 : bnd := mkBnd 1 80 [rec1] 0.
Definition on_edge : datum := mkDatum 66 0 1 0 0.
Lemma edge_usable : usable bnd1 0 on_edge rec1 2.
Proof. unfold usable. cbn. repeat split; try lia; try lra; auto. Qed.
Lemma edge_dist : dist (point (colat 1 66) 0) (centre rec1) = rr rec1 + 2.
Proof.
  unfold dist, point, colat, centre. cbn [fst snd rec1 rr rcent phic]. replace (0 * PI / 12) with 0 by field. replace (0 * PI / 180) with 0 by field.
  rewrite cos_0, sin_0. replace (((90 - 1 * 66) * 1 - 4 * 1) ^ 2 + ((90 - 1 * 66) * 0 - 4 * 0) ^ 2) with (Rsqr 20) by (unfold Rsqr; ring).
  rewrite sqrt_Rsqr by lra. lra.
Qed.

Theorem C88_other_boundary_refuted :
  (* calling set_ocb with another boundary keeps the coordinates of the first *)
  exists b1 b2 ind d v1 b1' v2 b2' ol2 om2 rc2 after,
    set_ocb b1 ind None None (given d) = Ok (v1, b1') /\
    set_ocb b2 ind None None v1 = Ok (v2, b2') /\
    normal_coord (with_rind b2 ind) (sc (Some (g_lat d))) (sc (Some (g_lt d))) = Ok (out true [Some ol2], om2, rc2, after) /\
    ol2 = 80 /\ w_olat v2 = Some 74.
Proof.
  destruct (scalar_spec bnd1 0 on_edge rec1 2 loaded1 edge_usable) as (v1 & E1 & D).
  destruct D as (rc & c & ol & om & U & N & FI). cbn [fst snd] in *.
  assert (rc = rec1 /\ c = 2) as [-> ->].
  { destruct U as (_ & X & _ & Y & _). cbn in X. injection X as <-. cbn in Y. injection Y as <-. auto. }
  destruct (C27_boundary_to_reference bnd1 rec1 66 0 2) as (ol1 & om1 & af1 & N1 & Q1).
  { split; [now left|cbn; lra]. } { split; [cbn; lia|reflexivity]. } { unfold in_hemisphere. cbn. lra. } { reflexivity. } { cbn. lra. }
  destruct (C27_boundary_to_reference bnd80 rec1 66 0 2) as (ol2 & om2 & af2 & N2 & Q2).
  { split; [now left|cbn; lra]. } { split; [cbn; lia|reflexivity]. } { unfold in_hemisphere. cbn. lra. } { reflexivity. } { cbn. lra. }
  cbv zeta in Q1, Q2. destruct Q1 as ((Q1 & _) & _). destruct Q2 as ((Q2 & _) & _). specialize (Q1 edge_dist). specialize (Q2 edge_dist).
  change (at_rec bnd1 0) with bnd1 in N. change (g_lat on_edge) with 66 in N. change (g_lt on_edge) with 0 in N. rewrite N1 in N. injection N as <- <- _.
  cbn [blat bnd1 bnd80] in Q1, Q2. subst ol1 ol2.
  destruct FI as (n & e & z & B & V).
  assert (C1 : coordinates v1 = (Some 74, Some om1, Some 2)) by (rewrite V; reflexivity).
  assert (NC : no_coords [v1] = false) by (rewrite V; reflexivity).
  assert (LOC : location v1 = (Some 66, Some 0)) by (rewrite V; reflexivity).
  assert (CMP : ScalingSpec.components v1 = (Some 1, Some 0, Some 0)) by (rewrite V; reflexivity).
  assert (GV : good_vel v1).
  { exists 66, 0, 1, 0, 0. unfold location in LOC. unfold ScalingSpec.components in CMP. injection LOC as -> ->. injection CMP as -> -> ->. repeat (split; [reflexivity|]). lra. }
  destruct (work_exists rec1 v1) as (k & K1 & K2 & K3); [cbn; lra|exact GV|].
  destruct (adjust_total k K3) as [r A].
  { rewrite K2. unfold ScalingSpec.components in CMP. injection CMP as -> _ _. discriminate. }
  { rewrite K2. unfold ScalingSpec.components in CMP. injection CMP as _ -> _. discriminate. }
  destruct (finish1_spec bnd80 k r K3 A) as (v2 & F1 & F2). rewrite K1, K2 in F1, F2.
  exists bnd1, bnd80, 0%Z, on_edge, v1. eexists. exists v2, bnd80. eexists _, _, _, _.
  split; [exact E1|]. split; [|split; [exact N2|]].
  - unfold set_ocb. change (getE (recs bnd80) (rind bnd80)) with (Ok rec1). cbn [bind]. cbv zeta. rewrite NC. cbn [bind]. rewrite NC.
    change (getE (recs bnd80) 0) with (Ok rec1). cbn [bind choose_sf]. rewrite F1. reflexivity.
  - split; [reflexivity|]. destruct F2 as (n2 & e2 & z2 & _ & V2). rewrite V2. cbn. unfold coordinates in C1. congruence.
Qed.
Example C88_case : ~ has_all_coords (given at_centre) /\ exists v b', set_ocb bnd1 0 None None (given at_centre) = Ok (v, b').
Proof.
  split; [intros (H & _); now apply H|]. destruct (scalar_spec bnd1 0 at_centre rec1 2 loaded1 centre_usable) as (v & E & _). eauto.
Qed.
Print Assumptions C88_coordinates_from_boundary_partial.
Print Assumptions C88_other_boundary_refuted.

(** ** C89 *)
Definition same_boundary (b b' : bnd) : Prop :=
  CoordModel.hemi b' = CoordModel.hemi b /\ blat b' = blat b /\ recs b' = recs b.

Theorem C89_inputs_kept_partial :
  (* missing: arrays of vectors with one record lose the latitudes outside the
     hemisphere (C89_latitude_lost_refuted) *)
  (forall b ind own arg v v' b', set_ocb b ind own arg v = Ok (v', b') ->
     location v' = location v /\ ScalingSpec.components v' = ScalingSpec.components v /\ same_boundary b b') /\
  (forall b inds own arg vs vs' b', length inds = length vs -> set_ocb_matched b inds own arg vs = Ok (vs', b') ->
     Forall2 (fun v v' => location v' = location v /\ ScalingSpec.components v' = ScalingSpec.components v) vs vs' /\ same_boundary b b') /\
  (forall b ind own arg vs vs' b', (CoordModel.hemi b = 1 \/ CoordModel.hemi b = -1)%Z ->
     set_ocb_array b ind own arg vs = Ok (vs', b') ->
     Forall2 (fun v v' => (w_lat v' = w_lat v \/ w_lat v' = None /\ outside (CoordModel.hemi b) (w_lat v)) /\
                          w_lt v' = w_lt v /\ ScalingSpec.components v' = ScalingSpec.components v) vs vs' /\ same_boundary b b').
Proof.
  split; [|split].
  - intros b ind own arg v v' b' H. destruct (set_ocb_kept _ _ _ _ _ _ _ H) as (A & B & C & D & E).
    unfold location, ScalingSpec.components. split; [congruence|]. split; [congruence|].
    destruct (set_ocb_inv _ _ _ _ _ _ _ H) as (r0 & v1 & _ & _ & EB & _). subst b'. unfold same_boundary. destruct (no_coords [v]); auto.
  - intros b inds own arg vs vs' b' L H. split.
    + pose proof (matched_kept _ _ _ _ _ _ _ L H) as K. revert K. apply Forall2_imp. intros x y (A & B & C & D & E).
      unfold location, ScalingSpec.components. split; congruence.
    + destruct (matched_inv _ _ _ _ _ _ _ H) as (r0 & v1 & _ & _ & EB & _). subst b'. unfold same_boundary. destruct (no_coords vs); [rewrite last_rec_eq|]; auto.
  - intros b ind own arg vs vs' b' Hh H. split.
    + pose proof (array_kept _ _ _ _ _ _ _ H) as K. revert K. apply Forall2_imp. intros x y (A & B & C & D & E).
      unfold ScalingSpec.components. split; [|split; congruence]. destruct A as [A|[A W]]; [now left|right]. split; [exact A|]. now apply wrong_side_outside.
    + destruct (array_inv _ _ _ _ _ _ _ H) as (r0 & v1 & _ & _ & EB & _). subst b'. unfold same_boundary. destruct (no_coords vs); auto.
Qed.
Theorem C89_latitude_lost_refuted :
  exists b ind d0 d1 v0 v1 b',
    set_ocb_array b ind None None [given d0; given d1] = Ok ([v0; v1], b') /\ w_lat (given d1) <> None /\ w_lat v1 = None.
Proof.
  destruct (array_mixed bnd1 0 None None [at_centre; southern] loaded1) as (vs & rc & N & E & F).
  - constructor; [left; exists rec1, 2; exact centre_usable|]. constructor; [right; exact southern_other|constructor].
  - exists at_centre, rec1, 2. split; [now left|exact centre_usable].
  - inversion F as [|x v0 l l' D0 F0]; subst. inversion F0 as [|x v1 m m' [_ D1] F1]; subst. inversion F1; subst.
    exists bnd1, 0%Z, at_centre, southern, v0, v1. eexists. split; [exact E|]. split; [discriminate|].
    destruct (D1 southern_other) as ([[n e] z] & W & _). cbn in W. rewrite W. reflexivity.
Qed.
Example C89_case : exists v b', set_ocb bnd1 0 None None (given at_centre) = Ok (v, b') /\ ScalingSpec.components v = (Some 1, Some 0, Some 0) /\ normalised v <> ScalingSpec.components v.
Proof.
  destruct C54_case as (_ & _ & v & E & W). exists v, bnd1. split; [exact E|].
  destruct C89_inputs_kept_partial as [K _]. destruct (K _ _ _ _ _ _ _ E) as (_ & C & _). rewrite C. split; [reflexivity|].
  unfold normalised. rewrite W. unfold ScalingSpec.components. cbn. intros Q. injection Q as Q _. lra.
Qed.
Print Assumptions C89_inputs_kept_partial.
Print Assumptions C89_latitude_lost_refuted.

(** ** C90 *)
Definition valid_index (b : bnd) (i : Z) : Prop := (- Z.of_nat (length (recs b)) <= i < Z.of_nat (length (recs b)))%Z.
Lemma valid_getE b i : valid_index b i -> exists r, getE (recs b) i = Ok r.
Proof. intros V. exact (loaded_getE (with_rind b i) V). Qed.

Theorem C90_repeated_partial :
  (* missing: an index outside the records, C90_invalid_index_refuted *)
  (forall b ind own arg v v' b', valid_index b ind -> set_ocb b ind own arg v = Ok (v', b') ->
     set_ocb b' ind own arg v' = Ok (v', b')) /\
  (forall b inds own arg vs vs' b', length inds = length vs -> set_ocb_matched b inds own arg vs = Ok (vs', b') ->
     set_ocb_matched b' inds own arg vs' = Ok (vs', b')) /\
  (forall b ind own arg vs vs' b', valid_index b ind -> set_ocb_array b ind own arg vs = Ok (vs', b') ->
     set_ocb_array b' ind own arg vs' = Ok (vs', b')).
Proof.
  split; [|split].
  - intros b ind own arg v v' b' V H. destruct (valid_getE _ _ V) as [r E]. eapply set_ocb_again; eassumption.
  - intros b inds own arg vs vs' b' L H. eapply matched_again; eassumption.
  - intros b ind own arg vs vs' b' V H. destruct (valid_getE _ _ V) as [r E]. eapply array_again; eassumption.
Qed.
Theorem C90_invalid_index_refuted :
  (* an index past the records: NaN at first, IndexError when repeated *)
  forall b ind d, loaded_at b -> (Z.of_nat (length (recs b)) <= ind)%Z ->
    exists b', set_ocb b ind None None (given d) = Ok (given d, b') /\ set_ocb b' ind None None (given d) = Err IndexError.
Proof.
  intros b ind d L I. exists (with_rind b ind). destruct (loaded_getE b L) as [r0 E0]. split.
  - unfold set_ocb. rewrite E0. cbn [bind]. cbv zeta. assert (no_coords [given d] = true) as -> by reflexivity.
    assert (E : coords_of b ind (given d) = Ok (given d)).
    { unfold coords_of, normal_coord. assert (current (at_rec b ind) = None) as ->; [|reflexivity].
      unfold current. cbn [at_rec rind recs]. unfold zlen. assert ((Z.of_nat (length (recs b)) <=? ind)%Z = true) as -> by (apply Z.leb_le; lia). now rewrite orb_true_r. }
    rewrite E. reflexivity.
  - unfold set_ocb. cbn [with_rind recs rind]. assert (getE (recs b) ind = Err IndexError) as ->; [|reflexivity].
    unfold getE, py_get. cbv zeta. assert ((ind <? Z.of_nat (length (recs b)))%Z = false) as -> by (apply Z.ltb_ge; lia). rewrite andb_false_r.
    assert ((ind <? 0)%Z = false) as -> by (apply Z.ltb_ge; lia). rewrite andb_false_r. reflexivity.
Qed.
Example C90_case : valid_index bnd1 0 /\ valid_index bnd1 (-1) /\ loaded_at bnd1.
Proof. unfold valid_index. cbn. split; [lia|]. split; [lia|exact loaded1]. Qed.
Print Assumptions C90_repeated_partial.
Print Assumptions C90_invalid_index_refuted.
