(** C54-C56, C74, C85-C90: scaling of vectors. *)
From Coq Require Import Reals ZArith List Bool Lia Lra.
From Verif Require Import PyBase RangeModel RangeSpec RangeProofs CoordModel CoordSpec CoordProofs CoordProofs2 DualCoordModel
  VectorModel VectorSpec VectorProofs VectorProofs2 PropertiesCoord PropertiesVector
  ScalingModel ScalingProofs ScalingProofs2 ScalingSpec ScalingProofs3.
Import ListNotations.
Open Scope R_scope.

(** ** C54 *)
Theorem C54_single_vector_partial :
  (* missing: with a scaling function the scalar code scales the components before
     the rotation, C54_scaled_refuted *)
  forall b ind v,
    set_ocb_array b ind None None [v] =
      match set_ocb b ind None None v with Ok (v', b') => Ok ([v'], b') | Err e => Err e end /\
    (loaded_at b -> loaded_at (with_rind b ind) ->
     set_ocb_matched b [ind] None None [v] =
      match set_ocb b ind None None v with Ok (v', b') => Ok ([v'], b') | Err e => Err e end).
Proof.
  intros b ind v. split.
  - rewrite array_single. unfold rmap, bind. destruct (set_ocb b ind None None v) as [[v' b']|]; reflexivity.
  - intros L1 L2. destruct (loaded_getE b L1) as [r0 E0]. destruct (loaded_getE _ L2) as [rc E1].
    rewrite (matched_single b ind v r0 rc E0 E1). unfold rmap, bind. destruct (set_ocb b ind None None v) as [[v' b']|]; reflexivity.
Qed.

Definition at_centre : datum := mkDatum 86 0 1 0 0.
Lemma centre_usable : usable bnd1 0 at_centre rec1 2.
Proof. unfold usable. cbn. repeat split; try lia; try lra; auto. Qed.
Lemma loaded1 : loaded_at bnd1. Proof. unfold loaded_at. cbn. lia. Qed.
Lemma same0 : shifted 24 (0 / 15 - 0) 0. Proof. exists 0%Z. lra. Qed.

Theorem C54_scaled_refuted :
  exists b ind d v w b',
    set_ocb b ind (Some normal_evar) None (given d) = Ok (v, b') /\
    set_ocb_array b ind (Some normal_evar) None [given d] = Ok ([w], b') /\
    normalised v = (Some (5 / 4), Some 0, Some 0) /\ normalised w = (Some (- (5 / 4)), Some 0, Some 0).
Proof.
  exists bnd1, 0%Z, at_centre.
  destruct (scalar_scaled_spec bnd1 0 at_centre rec1 2 (Some normal_evar) None normal_evar loaded1 centre_usable eq_refl) as (v & ol & om & E & V).
  destruct (array_spec bnd1 0 (Some normal_evar) None [at_centre] loaded1 ltac:(discriminate)) as (vs & E2 & F).
  { constructor; [|constructor]. exists rec1, 2. exact centre_usable. }
  inversion F as [|x w l l' D F' E3 E4]; subst x l vs. inversion F'; subst l'. exists v, w. eexists. split; [exact E|]. split; [exact E2|].
  assert (R16 : 90 - Rabs 74 = 16) by (rewrite Rabs_pos_eq; lra).
  cbv zeta in V. cbn [blat bnd1 rr rec1 g_n g_e g_z at_centre] in V. rewrite R16 in V. split.
  - rewrite V. unfold normalised, put_out. cbn [w_on w_oe w_oz normal_evar fmap2 fdiv2].
    destruct (Req_EM_T 16 0); [lra|]. apply f_equal2; [apply f_equal2|]; apply f_equal; field.
  - destruct D as (rc & c & ol2 & om2 & U & _ & (n & e & z & B & W)). cbn [fst snd] in *.
    assert (rc = rec1 /\ c = 2) as [-> ->].
    { destruct U as (_ & N & _ & RF & _). cbn in N. injection N as <-. cbn in RF. injection RF as <-. auto. }
    assert (B2 : vector_to_boundary (Some 0) (Some 86) (Some 1) (Some 0) (Some 0) (Some 0) (Some 4) = Ok (Some (-1), Some (-0), Some 0)).
    { rewrite (to_boundary_aligned 0 86 1 0 0 0 4 0 (or_introl eq_refl) same0) by lra. destruct (Req_EM_T 86 (90 - 4)); [reflexivity|lra]. }
    assert (B3 : Ok (n, e, z) = Ok (Some (-1), Some (-0), Some 0)) by (rewrite <- B; exact B2). injection B3 as -> -> ->.
    rewrite W. unfold normalised, put_out. cbn [choose_sf scaled w_on w_oe w_oz after_coords put_coord w_rc fmap option_map rr rec1 blat bnd1 normal_evar fmap2 fdiv2].
    rewrite R16. destruct (Req_EM_T 16 0); [lra|]. apply f_equal2; [apply f_equal2|]; apply f_equal; field.
Qed.
Example C54_case : loaded_at bnd1 /\ loaded_at (with_rind bnd1 0) /\ exists v, set_ocb bnd1 0 None None (given at_centre) = Ok (v, bnd1) /\ w_on v = Some (-1).
Proof.
  split; [exact loaded1|]. split; [exact loaded1|].
  destruct (scalar_spec bnd1 0 at_centre rec1 2 loaded1 centre_usable) as (v & E & (rc & c & ol2 & om2 & U & _ & (n & e & z & B & W))).
  exists v. split; [exact E|]. cbn [fst snd] in *.
  assert (rc = rec1) as -> by (destruct U as (_ & N & _); cbn in N; congruence).
  assert (B2 : vector_to_boundary (Some 0) (Some 86) (Some 1) (Some 0) (Some 0) (Some 0) (Some 4) = Ok (Some (-1), Some (-0), Some 0)).
  { rewrite (to_boundary_aligned 0 86 1 0 0 0 4 0 (or_introl eq_refl) same0) by lra. destruct (Req_EM_T 86 (90 - 4)); [reflexivity|lra]. }
  assert (B3 : Ok (n, e, z) = Ok (Some (-1), Some (-0), Some 0)) by (rewrite <- B; exact B2). injection B3 as -> -> ->. rewrite W. reflexivity.
Qed.
Print Assumptions C54_single_vector_partial.
Print Assumptions C54_scaled_refuted.

(** ** C55 *)
Theorem C55_scaling_laws :
  forall u s : R, s <> 0 ->
    (* the laws *)
    (forall x, normal_evar (Some x) (Some u) (Some s) = Some (x * (u / s))) /\
    (forall x, normal_curl_evar (Some x) (Some u) (Some s) = Some (x * (u / s) ^ 2)) /\
    (* linear *)
    (forall a b x y p q, normal_evar (Some x) (Some u) (Some s) = Some p -> normal_evar (Some y) (Some u) (Some s) = Some q ->
       normal_evar (Some (a * x + b * y)) (Some u) (Some s) = Some (a * p + b * q)) /\
    (forall a b x y p q, normal_curl_evar (Some x) (Some u) (Some s) = Some p -> normal_curl_evar (Some y) (Some u) (Some s) = Some q ->
       normal_curl_evar (Some (a * x + b * y)) (Some u) (Some s) = Some (a * p + b * q)) /\
    (* identity at equal radii *)
    (forall x, normal_evar (Some x) (Some s) (Some s) = Some x /\ normal_curl_evar (Some x) (Some s) (Some s) = Some x) /\
    (* scaling to [s] and then from [s] to [t] is scaling to [t] *)
    (forall x t, t <> 0 ->
       normal_evar (normal_evar (Some x) (Some u) (Some s)) (Some s) (Some t) = normal_evar (Some x) (Some u) (Some t) /\
       normal_curl_evar (normal_curl_evar (Some x) (Some u) (Some s)) (Some s) (Some t) = normal_curl_evar (Some x) (Some u) (Some t)) /\
    (* scaling back *)
    (forall x, u <> 0 ->
       normal_evar (normal_evar (Some x) (Some u) (Some s)) (Some s) (Some u) = Some x /\
       normal_curl_evar (normal_curl_evar (Some x) (Some u) (Some s)) (Some s) (Some u) = Some x) /\
    (* undefined values stay undefined *)
    (normal_evar None (Some u) (Some s) = None /\ normal_curl_evar None (Some u) (Some s) = None).
Proof.
  intros u s S.
  assert (E : forall x a b, b <> 0 -> normal_evar (Some x) (Some a) (Some b) = Some (x * (a / b))).
  { intros x a b B. unfold normal_evar. cbn. destruct (Req_EM_T b 0); [contradiction|]. apply f_equal. field. exact B. }
  assert (C : forall x a b, b <> 0 -> normal_curl_evar (Some x) (Some a) (Some b) = Some (x * (a / b) ^ 2)).
  { intros x a b B. unfold normal_curl_evar. cbn [fdiv2]. destruct (Req_EM_T b 0); [contradiction|]. reflexivity. }
  repeat match goal with |- _ /\ _ => split end.
  - auto.
  - auto.
  - intros a b x y p q P Q. rewrite E in * by exact S. injection P as <-. injection Q as <-. apply f_equal. ring.
  - intros a b x y p q P Q. rewrite C in * by exact S. injection P as <-. injection Q as <-. apply f_equal. ring.
  - intros x. rewrite E, C by exact S. split; apply f_equal; field; exact S.
  - intros x t T. rewrite (E x u s S), (C x u s S), !E, !C by assumption. split; apply f_equal; field; auto.
  - intros x U. rewrite (E x u s S), (C x u s S), E, C by assumption. split; apply f_equal; field; auto.
  - reflexivity.
  - reflexivity.
Qed.
Example C55_case : normal_evar (Some 3) (Some 20) (Some 16) = Some (3 * (20 / 16)) /\ 3 * (20 / 16) <> 3.
Proof. split; [apply C55_scaling_laws; lra|lra]. Qed.
Print Assumptions C55_scaling_laws.

(** ** C56 *)
Lemma hav_range a : 0 <= sin (a * (1 / 2)) ^ 2 <= 1.
Proof. pose proof (SIN_bound (a * (1 / 2))). split; [apply pow2_ge_0|]. nra. Qed.
Theorem C56_haversine :
  (* in [0, 1], even, of period 2 pi *)
  (forall a, exists h, hav (Some a) = Some h /\ 0 <= h <= 1 /\ h = (1 - cos a) / 2) /\
  (forall a, hav (Some (- a)) = hav (Some a)) /\
  (forall a k, hav (Some (a + 2 * IZR k * PI)) = hav (Some a)) /\
  (* the inverse, down to the cut-off at 1e-16 *)
  (forall a h, - PI <= a <= PI -> hav (Some a) = Some h ->
     archav (Some h) = if Rlt_dec h (/ (10 ^ 16)) then Some 0 else Some (Rabs a)) /\
  (forall h, / (10 ^ 16) <= h <= 1 -> exists a, archav (Some h) = Some a /\ 0 < a <= PI /\ hav (Some a) = Some h) /\
  (* numbers that are no haversine, and NaN *)
  (forall h, h <= - / (10 ^ 16) \/ 1 < h -> archav (Some h) = None) /\
  (forall h, Rabs h < / (10 ^ 16) -> archav (Some h) = Some 0) /\
  hav None = None /\ archav None = None.
Proof.
  pose proof PI_RGT_0 as PP. assert (SM : 0 < / (10 ^ 16) < 1) by (split; lra).
  assert (HC : forall a, sin (a * (1 / 2)) ^ 2 = (1 - cos a) / 2).
  { intros a. replace (cos a) with (cos (2 * (a * (1 / 2)))) by (f_equal; field). rewrite cos_2a_sin. field. }
  assert (E1 : forall a, exists h, hav (Some a) = Some h /\ 0 <= h <= 1 /\ h = (1 - cos a) / 2).
  { intros a. exists (sin (a * (1 / 2)) ^ 2). split; [reflexivity|]. split; [apply hav_range|apply HC]. }
  split; [exact E1|]. split; [|split; [|split; [|split; [|split; [|split]]]]].
  - intros a. cbn [hav fmap option_map]. apply f_equal. rewrite !HC. now rewrite cos_neg.
  - intros a k. cbn [hav fmap option_map]. apply f_equal. rewrite !HC. f_equal. f_equal.
    assert (T : shifted (2 * PI) a (a + 2 * IZR k * PI)) by (exists k; ring). destruct (shifted_trig _ _ T) as [_ C]. rewrite C. reflexivity.
  - intros a h A H. cbn [hav fmap option_map] in H. assert (h = sin (a * (1 / 2)) ^ 2) as -> by congruence. cbv beta iota zeta delta [archav]. pose proof (hav_range a) as HR.
    rewrite (Rabs_pos_eq (sin _ ^ 2)) by lra. destruct (Rlt_dec _ _) as [L|L]; [reflexivity|]. destruct (Rle_dec _ _) as [M|M]; [|lra].
    assert (SQ : sqrt (sin (a * (1 / 2)) ^ 2) = Rabs (sin (a * (1 / 2)))).
    { replace (sin (a * (1 / 2)) ^ 2) with (Rsqr (sin (a * (1 / 2)))) by (unfold Rsqr; ring). apply sqrt_Rsqr_abs. }
    rewrite SQ.
    assert (AB : Rabs (sin (a * (1 / 2))) = sin (Rabs a / 2)).
    { unfold Rabs at 2. destruct (Rcase_abs a) as [N|N].
      - rewrite Rabs_left1.
        + replace (a * (1 / 2)) with (- (- a / 2)) by field. rewrite sin_neg. ring.
        + replace (a * (1 / 2)) with (- (- a / 2)) by field. rewrite sin_neg.
          assert (0 <= sin (- a / 2)) by (apply sin_ge_0; lra). lra.
      - rewrite Rabs_pos_eq; [f_equal; field|]. apply sin_ge_0; lra. }
    rewrite AB. unfold fasin. destruct (Rle_dec (sin (Rabs a / 2)) 1) as [Q|Q]; [|pose proof (SIN_bound (Rabs a / 2)); lra].
    cbn [fmap option_map]. apply f_equal. rewrite asin_sin; [field|].
    assert (0 <= Rabs a <= PI) by (split; [apply Rabs_pos|apply Rabs_le; lra]). lra.
  - intros h H. cbv beta iota zeta delta [archav]. rewrite (Rabs_pos_eq h) by lra. destruct (Rlt_dec _ _); [lra|]. destruct (Rle_dec _ _); [|lra].
    assert (S1 : 0 < sqrt h <= 1).
    { split; [apply sqrt_lt_R0; lra|]. rewrite <- sqrt_1 at 1. apply sqrt_le_1_alt. lra. }
    unfold fasin. destruct (Rle_dec (sqrt h) 1); [|lra]. cbn [fmap option_map]. eexists. split; [reflexivity|].
    pose proof (asin_bound (sqrt h)) as AB.
    assert (SA : sin (asin (sqrt h)) = sqrt h) by (apply sin_asin; lra). split.
    + split; [|lra]. destruct (Rlt_dec 0 (asin (sqrt h))) as [P|P]; [lra|]. exfalso.
      assert (sin (asin (sqrt h)) <= 0); [|lra].
      replace (asin (sqrt h)) with (- (- asin (sqrt h))) by ring. rewrite sin_neg.
      assert (0 <= sin (- asin (sqrt h))) by (apply sin_ge_0; lra). lra.
    + cbn [hav fmap option_map]. apply f_equal. replace (2 * asin (sqrt h) * (1 / 2)) with (asin (sqrt h)) by field. rewrite SA.
      replace (sqrt h ^ 2) with (sqrt h * sqrt h) by ring. apply sqrt_sqrt. lra.
  - intros h [H|H]; cbv beta iota zeta delta [archav].
    + destruct (Rlt_dec (Rabs h) (/ 10 ^ 16)) as [L|L]; [apply Rabs_def2 in L; lra|]. destruct (Rle_dec _ _); [lra|reflexivity].
    + rewrite Rabs_pos_eq by lra. destruct (Rlt_dec _ _); [lra|]. destruct (Rle_dec _ _); [|lra]. unfold fasin.
      destruct (Rle_dec (sqrt h) 1) as [L|L]; [|reflexivity]. exfalso. rewrite <- sqrt_1 in L. apply sqrt_le_0 in L; lra.
  - intros h H. cbv beta iota zeta delta [archav]. destruct (Rlt_dec _ _); [reflexivity|lra].
  - split; reflexivity.
Qed.
Example C56_case : archav (Some (1 / 2)) <> None /\ exists h, hav (Some (PI / 3)) = Some h /\ archav (Some h) = Some (Rabs (PI / 3)).
Proof.
  destruct C56_haversine as (H1 & _ & _ & H4 & H5 & _). pose proof PI_RGT_0. split.
  - destruct (H5 (1 / 2) ltac:(lra)) as [a [E _]]. rewrite E. discriminate.
  - destruct (H1 (PI / 3)) as [h [E [_ V]]]. exists h. split; [exact E|]. rewrite (H4 (PI / 3) h ltac:(lra) E).
    rewrite V, cos_PI3. destruct (Rlt_dec _ _); [lra|reflexivity].
Qed.
Print Assumptions C56_haversine.

(** ** C74 *)
Lemma fits_scalar s x : fits s x <-> scalar_or s x. Proof. reflexivity. Qed.
Lemma attr_scalar_or ind x : scalar_or ind (attr_shape ind x) <-> scalar_or ind x.
Proof.
  unfold scalar_or, attr_shape. destruct (scalar x) eqn:E; [|cbn; tauto].
  apply scalar_eq in E. subst x. destruct (scalar ind) eqn:F; cbn; tauto.
Qed.
Lemma attr_full ind x : ind <> [] -> scalar_or ind x -> attr_shape ind x = ind.
Proof.
  intros N [-> | ->]; unfold attr_shape; cbn.
  - apply scalar_neq in N. now rewrite N.
  - apply scalar_neq in N. now rewrite N.
Qed.
Lemma attr_nonscalar ind x : ind <> [] -> attr_shape ind x <> [].
Proof. intros N. unfold attr_shape. destruct (scalar x) eqn:E; [|now apply scalar_neq in E]. destruct ind; [congruence|discriminate]. Qed.
Lemma attr_nil x : attr_shape [] x = x.
Proof. unfold attr_shape. cbn. now rewrite andb_false_r. Qed.

(** The shapes [VectorData] accepts. *)
Definition accepted (dat ocb lat lt n e z olat omlt rcorr : list nat) : Prop :=
  scalar_or dat lat /\ scalar_or dat lt /\ scalar_or dat n /\ scalar_or dat e /\ scalar_or dat z /\
  (ocb = [] -> exists s, scalar_or s olat /\ scalar_or s omlt /\ scalar_or s rcorr) /\
  (ocb <> [] -> scalar_or ocb olat /\ scalar_or ocb omlt /\ scalar_or ocb rcorr /\ (dat = [] \/ exists k, dat = [k] /\ ocb = [k])).

Lemma bound_array (dat ocb vs olat omlt rcorr : shape) : ocb <> [] ->
  let a := attr_shape ocb olat in let b := attr_shape ocb omlt in let c := attr_shape ocb rcorr in
  (scalar_or ocb olat /\ scalar_or ocb omlt /\ scalar_or ocb rcorr ->
     test_bound_shape dat ocb vs a b c =
       if scalar dat then Ok ocb
       else match ocb, vs with [x], [y] => if (x =? y)%nat then Ok vs else Err ValueError | _, _ => Err ValueError end) /\
  (~ (scalar_or ocb olat /\ scalar_or ocb omlt /\ scalar_or ocb rcorr) -> test_bound_shape dat ocb vs a b c = Err ValueError).
Proof.
  intros N a b c. pose proof N as N'. apply scalar_neq in N'. split.
  - intros (A & B & C). subst a b c. rewrite !attr_full by assumption. unfold test_bound_shape. cbv zeta.
    assert (D : distinct [] [ocb; ocb; ocb] = [ocb]).
    { cbn [distinct existsb app]. assert (shape_eqb ocb ocb = true) as -> by now apply shape_eqb_eq. cbn [orb existsb].
      assert (shape_eqb ocb ocb = true) as -> by now apply shape_eqb_eq. reflexivity. }
    rewrite D. assert (L : largest [ocb] = ocb) by (unfold largest; cbn; now rewrite N'). rewrite L, N'.
    assert (shape_eqb ocb ocb = true) as -> by now apply shape_eqb_eq. cbn [negb orb andb length Nat.ltb Nat.leb Nat.eqb].
    destruct (scalar dat); [reflexivity|]. destruct ocb as [|x [|y l]]; [congruence| |].
    + destruct vs as [|u [|v l]]; cbn [length Nat.eqb negb]; try reflexivity.
    + destruct vs as [|u [|v l']]; cbn [length Nat.eqb negb]; try reflexivity. now destruct (negb _).
  - intros H. unfold test_bound_shape. cbv zeta. rewrite N'. cbn [negb andb].
    destruct (scalar (largest (distinct [] [a; b; c])) || negb (shape_eqb (largest (distinct [] [a; b; c])) ocb)) eqn:E; [reflexivity|].
    apply orb_false_iff in E. destruct E as [E1 E2]. apply negb_false_iff, shape_eqb_eq in E2. cbn [orb].
    destruct ((2 <? length (distinct [] [a; b; c]))%nat || (length (distinct [] [a; b; c]) =? 2)%nat && negb (has_scalar (distinct [] [a; b; c]))) eqn:E3; [reflexivity|].
    exfalso. apply H. destruct (bound_shapes a b c) as [BS _]. destruct (BS E3) as (s & F1 & F2 & F3).
    assert (s = ocb) as ->.
    { rewrite <- E2. symmetry. apply largest_two.
      - intros x X. apply (distinct_spec [a; b; c] []) in X; [|constructor]. destruct X as [[]|[<- |[<- |[<- |[]]]]]; assumption.
      - intros _. apply (distinct_spec [a; b; c] []); [constructor|]. right. left.
        destruct F1 as [F1|F1]; [|exact F1]. exfalso. revert F1. now apply attr_nonscalar. }
    split; [|split]; apply attr_scalar_or; assumption.
Qed.

Theorem C74_shapes_partial :
  (* missing: index arrays of two or more dimensions are refused, and the boundary
     values given for one boundary index need not fit the vectors (the C74_refuted theorems) *)
  forall dat ocb lat lt n e z olat omlt rcorr : shape,
    (accepted dat ocb lat lt n e z olat omlt rcorr ->
       vector_shapes dat ocb lat lt n e z olat omlt rcorr =
         Ok (mkVshapes dat dat dat dat dat (attr_shape ocb olat) (attr_shape ocb omlt) (attr_shape ocb rcorr)
               (match dat with [] => ocb | _ => dat end)) /\
       (ocb <> [] -> attr_shape ocb olat = ocb /\ attr_shape ocb omlt = ocb /\ attr_shape ocb rcorr = ocb)) /\
    (~ accepted dat ocb lat lt n e z olat omlt rcorr ->
       vector_shapes dat ocb lat lt n e z olat omlt rcorr = Err ValueError).
Proof.
  intros dat ocb lat lt n e z olat omlt rcorr. split.
  - intros (H1 & H2 & H3 & H4 & H5 & HO & HA). unfold vector_shapes. cbv zeta.
    rewrite (vector_shape_ok dat lat lt n e z H1 H2 H3 H4 H5). cbn [bind].
    assert (AL : forall x, scalar_or dat x -> attr_shape dat x = dat).
    { intros x X. destruct dat as [|k l]; [rewrite attr_nil; destruct X; assumption|]. apply attr_full; [discriminate|exact X]. }
    rewrite (AL lat H1), (AL lt H2). destruct ocb as [|k l] eqn:EO.
    + split; [|congruence]. destruct (HO eq_refl) as (s & F). rewrite !attr_nil.
      assert (test_bound_shape dat [] dat olat omlt rcorr = Ok dat) as ->.
      { unfold test_bound_shape. cbv zeta. cbn [scalar negb andb orb]. destruct (bound_shapes olat omlt rcorr) as [_ BS].
        rewrite BS by (exists s; exact F). reflexivity. }
      cbn [bind]. now destruct dat.
    + rewrite <- EO in *. assert (N : ocb <> []) by (rewrite EO; discriminate). destruct (HA N) as (A & B & C & D). split; [|intros _; rewrite !attr_full by assumption; auto].
      destruct (bound_array dat ocb dat olat omlt rcorr N) as [BA _]. rewrite BA by auto.
      destruct D as [-> |[j [-> ->]]]; [reflexivity|]. cbn. now rewrite Nat.eqb_refl.
  - intros H. unfold vector_shapes. cbv zeta.
    destruct (test_vector_shape dat (attr_shape dat lat) (attr_shape dat lt) n e z) as [r|er] eqn:E.
    + destruct (vector_shape_inv _ _ _ _ _ _ _ E) as (H1 & H2 & H3 & H4 & H5). apply (proj1 (attr_scalar_or _ _)) in H1, H2.
      rewrite (vector_shape_ok dat lat lt n e z H1 H2 H3 H4 H5) in E. injection E as <-. cbn [bind].
      destruct ocb as [|k l] eqn:EO.
      * rewrite !attr_nil. unfold test_bound_shape. cbv zeta. cbn [scalar negb andb orb].
        destruct ((2 <? length (distinct [] [olat; omlt; rcorr]))%nat || (length (distinct [] [olat; omlt; rcorr]) =? 2)%nat && negb (has_scalar (distinct [] [olat; omlt; rcorr]))) eqn:E3; [reflexivity|].
        exfalso. apply H. destruct (bound_shapes olat omlt rcorr) as [BS _]. repeat (split; [assumption|]). split; [intros _; now apply BS|congruence].
      * rewrite <- EO in *. assert (N : ocb <> []) by (rewrite EO; discriminate). destruct (bound_array dat ocb dat olat omlt rcorr N) as [B1 B2].
        assert (D : {scalar_or ocb olat /\ scalar_or ocb omlt /\ scalar_or ocb rcorr} + {~ (scalar_or ocb olat /\ scalar_or ocb omlt /\ scalar_or ocb rcorr)}).
        { assert (X : forall x, {scalar_or ocb x} + {~ scalar_or ocb x}).
          { intros x. unfold scalar_or. destruct (list_eq_dec Nat.eq_dec x []); [left; auto|]. destruct (list_eq_dec Nat.eq_dec x ocb); [left; auto|right; tauto]. }
          destruct (X olat); [|right; tauto]. destruct (X omlt); [|right; tauto]. destruct (X rcorr); [left; auto|right; tauto]. }
        destruct D as [D|D]; [|now rewrite B2 by exact D]. rewrite B1 by exact D. destruct (scalar dat) eqn:SD.
        -- exfalso. apply H. repeat (split; [assumption|]). split; [congruence|]. intros _. apply scalar_eq in SD. tauto.
        -- destruct ocb as [|x [|y m]]; [congruence| |reflexivity]. destruct dat as [|u [|v w]]; try reflexivity.
           destruct (Nat.eqb_spec x u) as [Q|Q]; [|reflexivity]. subst u. exfalso. apply H. repeat (split; [assumption|]). split; [congruence|].
           intros _. destruct D as (D1 & D2 & D3). repeat (split; [assumption|]). right. exists x. auto.
    + cbn [bind]. apply f_equal. unfold test_vector_shape in E. cbv zeta in E.
      destruct (_ || _) in E; [congruence|]. destruct (_ && _) in E; [|discriminate]. destruct (scalar dat); [congruence|discriminate].
Qed.
Theorem C74_refuted_two_dimensional :
  (* matching two-dimensional index arrays are refused *)
  forall a b, vector_shapes [a; b] [a; b] [a; b] [a; b] [a; b] [a; b] [a; b] [a; b] [a; b] [a; b] = Err ValueError.
Proof.
  intros a b. destruct (C74_shapes_partial [a; b] [a; b] [a; b] [a; b] [a; b] [a; b] [a; b] [a; b] [a; b] [a; b]) as [_ H]. apply H.
  intros (_ & _ & _ & _ & _ & _ & A). specialize (A ltac:(discriminate)). destruct A as (_ & _ & _ & [D|[k [D _]]]); discriminate.
Qed.
Theorem C74_refuted_boundary_values :
  (* with one boundary index, boundary latitudes of another length are accepted *)
  forall j k, exists s, vector_shapes [j] [] [j] [j] [j] [j] [j] [k] [] [] = Ok s /\ sh_v s = [j] /\ sh_olat s = [k].
Proof.
  intros j k. destruct (C74_shapes_partial [j] [] [j] [j] [j] [j] [j] [k] [] []) as [H _].
  destruct H as [E _].
  - unfold accepted, scalar_or. do 5 (split; [now auto|]). split; [intros _; exists [k]; auto|congruence].
  - eexists. split; [exact E|]. split; reflexivity.
Qed.
Example C74_case : accepted [5%nat] [5%nat] [5%nat] [] [5%nat] [5%nat] [] [] [] [] /\ ~ accepted [5%nat] [4%nat] [5%nat] [] [5%nat] [5%nat] [] [] [] [] /\
  ~ accepted [] [] [5%nat] [5%nat] [] [] [] [] [] [].
Proof.
  unfold accepted, scalar_or. split; [|split].
  - do 5 (split; [now auto|]). split; [discriminate|]. intros _. do 3 (split; [now auto|]). right. eauto.
  - intros (_ & _ & _ & _ & _ & _ & A). specialize (A ltac:(discriminate)). destruct A as (_ & _ & _ & [D|[k [D E]]]); congruence.
  - intros ([D|D] & _); discriminate.
Qed.
Print Assumptions C74_shapes_partial.
Print Assumptions C74_refuted_two_dimensional.
Print Assumptions C74_refuted_boundary_values.
