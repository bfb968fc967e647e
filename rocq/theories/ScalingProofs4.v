(** Arrays of which some vectors lie outside the hemisphere of the boundary. *)
From Coq Require Import Reals ZArith List Bool Lia Lra.
From Verif Require Import PyBase RangeModel RangeSpec RangeProofs CoordModel CoordSpec CoordProofs CoordProofs2 DualCoordModel
  VectorModel VectorSpec VectorProofs VectorProofs2 ScalingModel ScalingProofs ScalingProofs2 ScalingSpec ScalingProofs3.
Import ListNotations.
Open Scope R_scope.

(** ** Vectors whose quadrants are those the package computes *)
Definition computed (v : vin) : Prop :=
  v_q v = define_vect_quadrants (v_n v) (v_e v) /\ define_pole_quadrants (v_lt v) (p_lt v) (p_ang v) = Ok (p_q v).

Lemma computed_consistent v : computed v -> consistent v.
Proof. intros [H1 H2]. split; now right. Qed.
Lemma with_same v : with_quads v (v_q v) (p_q v) = v.
Proof. now destruct v. Qed.
Lemma requad_same vs : (forall v, In v vs -> computed v) -> requad vs = Ok vs.
Proof.
  intros H. unfold requad. cbv zeta. set (rv := existsb (fun v => v_q v =? 0)%Z _). set (rp := existsb (fun v => p_q v =? 0)%Z _). clearbody rv rp.
  induction vs as [|v vs IH]; [reflexivity|]. cbn [mapE]. destruct (H v (or_introl eq_refl)) as [H1 H2].
  assert ((if rp then define_pole_quadrants (v_lt v) (p_lt v) (p_ang v) else Ok (p_q v)) = Ok (p_q v)) as -> by (destruct rp; auto).
  cbn [bind]. assert ((if rv then define_vect_quadrants (v_n v) (v_e v) else v_q v) = v_q v) as -> by (destruct rv; auto).
  rewrite with_same, IH; [reflexivity|]. intros w W. apply H. now right.
Qed.
Lemma adjust_vectors_full vs : (forall v, In v vs -> computed v) -> (exists v, In v vs /\ defined v) ->
  exists rs, adjust_vectors vs = Ok rs /\
    Forall2 (fun v r => ((special v <> None \/ defined v) -> adjust_vector v = Ok r) /\
                        (special v = None -> ~ defined v -> r = (None, None, None))) vs rs.
Proof.
  intros CS (w & Hw & D). destruct (existsb is_norm vs) eqn:EX.
  - unfold adjust_vectors. rewrite EX, requad_same by exact CS. cbn [bind].
    assert (existsb (fun v => quad_ok (p_q v)) vs = true) as ->.
    { apply existsb_exists. exists w. split; [exact Hw|]. destruct (CS w Hw) as [_ P]. now apply (quad_zero_or w). }
    assert (existsb (fun v => quad_ok (v_q v)) vs = true) as ->.
    { apply existsb_exists. exists w. split; [exact Hw|]. destruct (CS w Hw) as [-> _]. now apply vquad_ok. }
    cbn [negb]. eexists. split; [reflexivity|]. apply Forall2_map. intros v Hv. destruct (CS v Hv) as [C1 C2].
    destruct (special v) as [r|] eqn:SP.
    + split; [intros _; now apply adjust_special|discriminate].
    + split.
      * intros [Q|Q]; [congruence|]. apply elem_defined; try assumption. now apply computed_consistent.
      * intros _ N. now apply elem_undefined.
  - apply adjust_vectors_spec; [intros v Hv; now apply computed_consistent, CS|]. left. intros v Hv S. apply special_norm in S.
    assert (existsb is_norm vs = true) by (apply existsb_exists; eauto). congruence.
Qed.

(** ** The steps after the coordinates *)
Definition k_in (k : work) : Prop :=
  get_pole_loc (Some (phic (k_rc k))) (Some (rcent (k_rc k))) = Ok (k_lt k, k_lat k) /\
  pole_angle_elem (w_lt (k_v k)) (w_lat (k_v k)) (k_lt k) (k_lat k) = Ok (k_ang k) /\
  define_pole_quadrants (w_lt (k_v k)) (k_lt k) (k_ang k) = Ok (k_q k).
Lemma k_ok_in k : k_ok k -> k_in k.
Proof. intros (E & _ & _ & _ & _ & _ & _ & _ & EA & EQ). repeat split; assumption. Qed.

Definition finished_with (b : bnd) (sf : option sfun) (rc : rec) (v : vel) (r : fl * fl * fl) (v' : vel) : Prop :=
  let '(n, e, z) := r in
  let u := fmap (fun c => rr rc + c) (w_rc v) in
  let s := Some (90 - Rabs (blat b)) in
  v' = put_out (put_radii v u s) (scaled sf n u s) (scaled sf e u s) (scaled sf z u s).

Lemma finish_mixed b sf ks : (forall k, In k ks -> k_in k) -> (exists k, In k ks /\ k_ok k) ->
  exists vs', finish b sf (map k_rc ks) (map k_v ks) = Ok vs' /\
    Forall2 (fun k v' => exists r, finished_with b sf (k_rc k) (k_v k) r v' /\
                         (k_ok k -> adjust_vector (k_vin k) = Ok r) /\
                         (special (k_vin k) = None -> ~ defined (k_vin k) -> r = (None, None, None))) ks vs'.
Proof.
  intros OKS (w & Hw & KO). unfold finish. cbv zeta. rewrite combine_maps, map_map. cbn [fst snd].
  set (rad := fun k => put_radii (k_v k) (fmap (fun c => rr (k_rc k) + c) (w_rc (k_v k))) (Some (90 - Rabs (blat b)))).
  fold rad. change (map (fun x => rad x) ks) with (map rad ks).
  rewrite (mapE_map _ _ (fun k => (k_lt k, k_lat k))) by (intros k K; apply (OKS k K)). cbn [bind].
  assert (NALL : forall {A} (f : A -> bool) (g : work -> A), f (g w) = false -> forallb f (map g ks) = false).
  { intros A f g H. apply not_true_iff_false. intros T. rewrite forallb_forall in T. specialize (T (g w) (in_map g ks w Hw)). congruence. }
  destruct KO as (K1 & K2 & K3 & K4 & K5 & K6 & K7 & K8 & K9 & K10).
  rewrite (NALL _ (fun v => isnan (w_lt v)) rad) by (cbn; now destruct (w_lt (k_v w))).
  rewrite (NALL _ (fun v => isnan (w_lat v)) rad) by (cbn; now destruct (w_lat (k_v w))). cbn [orb]. rewrite combine_maps.
  rewrite (mapE_map _ _ k_ang). 2:{ intros k K. cbn [fst snd]. apply (OKS k K). } cbn [bind].
  rewrite (NALL _ isnan k_ang) by (now destruct (k_ang w)). rewrite combine_maps, combine_maps.
  rewrite (mapE_map _ _ k_vin).
  2:{ intros k K. cbn [fst snd]. destruct (OKS k K) as (_ & _ & EQ). cbn. unfold rad, put_radii. cbn [w_lt].
      rewrite EQ. reflexivity. }
  cbn [bind].
  assert (CS : forall v, In v (map k_vin ks) -> computed v).
  { intros v Hv. apply in_map_iff in Hv. destruct Hv as [k [<- K]]. destruct (OKS k K) as (_ & _ & EQ). split; [reflexivity|exact EQ]. }
  destruct (adjust_vectors_full (map k_vin ks) CS) as [rs [E F]].
  { exists (k_vin w). split; [now apply in_map|]. unfold defined, k_vin. cbn. auto. }
  rewrite E. cbn [bind]. eexists. split; [reflexivity|].
  clear - F. revert rs F. induction ks as [|k ks IH]; intros rs F; inversion F as [|x [[n e] z] l l' [H1 H2] F']; subst; cbn [map combine]; constructor.
  - exists (n, e, z). split; [reflexivity|]. split; [|exact H2]. intros (_ & A1 & A2 & A3 & _ & A5 & A6 & _). apply H1. right.
    unfold defined, k_vin. cbn. auto.
  - now apply IH.
Qed.

(** ** Vectors on the other side of the equator *)
Definition other_side (b : bnd) (d : datum) : Prop := ~ in_hemisphere (CoordModel.hemi b) (g_lat d).
Definition lost (rc : rec) (d : datum) : vel := put_coord (given d) None None None (rfun rc (Some (g_lt d))).

Lemma lost_work rc d : exists k, k_rc k = rc /\ k_v k = lost rc d /\ k_in k /\ ~ defined (k_vin k) /\
  (~ (g_n d = 0 /\ g_e d = 0) -> special (k_vin k) = None).
Proof.
  destruct (pole_loc_spec (phic rc) (rcent rc)) as [p (E & _)].
  destruct (del_long_spec (g_lt d) p) as [dl (ED & _)].
  assert (EA : pole_angle_elem (Some (g_lt d)) None (Some p) (Some (90 - rcent rc)) = Ok None).
  { unfold pole_angle_elem. rewrite ED. cbn [bind abs_lt abs_ge]. rewrite !andb_false_r. reflexivity. }
  destruct (pole_quad_total (Some (g_lt d)) (Some p) None) as [q Q].
  exists (mkWork rc (lost rc d) (Some p) (Some (90 - rcent rc)) None q). split; [reflexivity|]. split; [reflexivity|].
  split; [repeat split; assumption|]. split; [unfold defined; cbn; tauto|].
  intros NZ. unfold special, is_ns, is_zero, k_vin. cbn. destruct (Req_EM_T (g_n d) 0), (Req_EM_T (g_e d) 0); try reflexivity. exfalso. tauto.
Qed.

Lemma normal_pt_none h bl rc m : normal_pt h bl rc None m = Ok (None, None).
Proof.
  destruct (normal_pt_total h bl rc None m) as (ol & om & E & _ & _ & EQ & H). rewrite E.
  assert (ol = None) as -> by (apply H; now left). assert (om = None) as -> by (apply EQ; reflexivity). reflexivity.
Qed.

(** What the array code leaves in each vector. *)
Definition array_done (b : bnd) (sf : option sfun) (ind : Z) (rc : rec) (d : datum) (v : vel) : Prop :=
  (in_hemisphere (CoordModel.hemi b) (g_lat d) -> item_done b sf (ind, d) v) /\
  (other_side b d -> exists r, finished_with b sf rc (lost rc d) r v /\ (~ (g_n d = 0 /\ g_e d = 0) -> r = (None, None, None))).

Definition mixed_item (b : bnd) (ind : Z) (d : datum) : Prop := (exists rc c, usable b ind d rc c) \/ other_side b d.

Lemma usable_inside b ind d rc c : usable b ind d rc c -> in_hemisphere (CoordModel.hemi b) (g_lat d).
Proof. intros (_ & _ & L & _). unfold in_hemisphere. lra. Qed.

(** The vectors once the coordinates are set. *)
Lemma mixed_work b ind rc ds : (CoordModel.hemi b = 1 \/ CoordModel.hemi b = -1)%Z ->
  Forall (fun d => mixed_item b ind d /\ forall rc' c, usable b ind d rc' c -> rc' = rc) ds ->
  exists ks, map k_rc ks = repeat rc (length ds) /\ length ks = length ds /\
    (forall k, In k ks -> k_in k) /\
    mapE (fun p => normal_pt (CoordModel.hemi b) (blat b) rc (fst p) (snd p))
      (map (fun d => ((if wrong_side (CoordModel.hemi b) (Some (g_lat d)) then None else Some (g_lat d)), Some (g_lt d))) ds)
      = Ok (map (fun k => (w_olat (k_v k), w_omlt (k_v k))) ks) /\
    map (fun d => rfun rc (Some (g_lt d))) ds = map (fun k => w_rc (k_v k)) ks /\
    put_coords (map given ds) (map (fun d => if wrong_side (CoordModel.hemi b) (Some (g_lat d)) then None else Some (g_lat d)) ds)
      (map (fun k => w_olat (k_v k)) ks) (map (fun k => w_omlt (k_v k)) ks) (map (fun k => w_rc (k_v k)) ks) = map k_v ks /\
    Forall2 (fun d k =>
      (in_hemisphere (CoordModel.hemi b) (g_lat d) -> k_ok k /\ no_coords [k_v k] = false /\ exists c ol om, usable b ind d rc c /\
         normal_coord (at_rec b ind) (sc (Some (g_lat d))) (sc (Some (g_lt d))) =
           Ok (out true [Some ol], out true [Some om], out true [Some c], [Some (g_lat d)]) /\ k_v k = after_coords d ol om c) /\
      (other_side b d -> k_v k = lost rc d /\ ~ defined (k_vin k) /\ (~ (g_n d = 0 /\ g_e d = 0) -> special (k_vin k) = None))) ds ks.
Proof.
  intros H. induction 1 as [|d ds [MI RC] _ (ks & I1 & I2 & I3 & I4 & I5 & I6 & I7)].
  - exists []. split; [reflexivity|]. split; [reflexivity|]. split; [intros k []|]. repeat (split; [reflexivity|]). constructor.
  - destruct MI as [(rc' & c & U)|O].
    + pose proof (RC _ _ U) as ->. destruct (usable_coords b ind d rc c U) as (ol & om & E1 & E2 & E3 & E4).
      destruct (usable_good _ _ _ _ _ U) as (G & R & E5).
      destruct (work_exists rc (after_coords d ol om c) R) as (k & K1 & K2 & K3); [now apply good_put|].
      exists (k :: ks). cbn [map length repeat mapE fst snd combine put_coords]. rewrite E4. cbn [fst snd]. rewrite E3. cbn [bind]. rewrite I4. cbn [bind].
      rewrite K1, K2, I1, I2. repeat match goal with |- _ /\ _ => split end; try reflexivity.
      * intros j [<- |J]; [now apply k_ok_in|now apply I3].
      * cbn [after_coords put_coord w_rc]. destruct U as (_ & _ & _ & RF & _). now rewrite RF, I5.
      * now rewrite I6.
      * constructor; [|exact I7]. split.
        -- intros _. split; [exact K3|]. split; [rewrite K2; reflexivity|]. exists c, ol, om. rewrite K2. auto.
        -- intros O. destruct O. now apply usable_inside in U.
    + assert (W : wrong_side (CoordModel.hemi b) (Some (g_lat d)) = true) by (apply wrong_side_outside; [exact H|exact O]).
      destruct (lost_work rc d) as (k & K1 & K2 & K3 & K4 & K5).
      exists (k :: ks). cbn [map length repeat mapE fst snd combine put_coords]. rewrite W. cbn [fst snd]. rewrite normal_pt_none. cbn [bind]. rewrite I4. cbn [bind].
      rewrite K1, K2, I1, I2. repeat match goal with |- _ /\ _ => split end; try reflexivity.
      * intros j [<- |J]; [exact K3|now apply I3].
      * cbn [lost put_coord w_rc]. now rewrite I5.
      * now rewrite I6.
      * constructor; [|exact I7]. split; [intros I; now destruct O|]. intros _. auto.
Qed.

Lemma mixed_done b sf ind rc ds ks vs :
  Forall2 (fun d k =>
      (in_hemisphere (CoordModel.hemi b) (g_lat d) -> k_ok k /\ no_coords [k_v k] = false /\ exists c ol om, usable b ind d rc c /\
         normal_coord (at_rec b ind) (sc (Some (g_lat d))) (sc (Some (g_lt d))) =
           Ok (out true [Some ol], out true [Some om], out true [Some c], [Some (g_lat d)]) /\ k_v k = after_coords d ol om c) /\
      (other_side b d -> k_v k = lost rc d /\ ~ defined (k_vin k) /\ (~ (g_n d = 0 /\ g_e d = 0) -> special (k_vin k) = None))) ds ks ->
  map k_rc ks = repeat rc (length ds) ->
  Forall2 (fun k v' => exists r, finished_with b sf (k_rc k) (k_v k) r v' /\
                         (k_ok k -> adjust_vector (k_vin k) = Ok r) /\
                         (special (k_vin k) = None -> ~ defined (k_vin k) -> r = (None, None, None))) ks vs ->
  Forall2 (array_done b sf ind rc) ds vs.
Proof.
  intros F. revert vs. induction F as [|d k ds ks [HI HO] F IH]; intros vs R G; inversion G as [|x v l l' (r & G1 & G2 & G3) G']; subst; constructor.
  - cbn [map repeat length] in R. injection R as R0 R'. split.
    + intros I. destruct (HI I) as (KO & _ & c & ol & om & U & N & K). specialize (G2 KO). exists rc, c, ol, om. cbn [fst snd].
      split; [exact U|]. split; [exact N|]. rewrite R0 in G1. rewrite K in G1. destruct r as [[n e] z]. exists n, e, z. split; [|exact G1].
      pose proof (k_to_boundary k (n, e, z) KO G2) as KB. rewrite R0, K in KB. exact KB.
    + intros O. destruct (HO O) as (K & ND & SP). rewrite R0, K in G1. exists r. split; [exact G1|]. intros NZ. apply G3; auto.
  - apply IH; [|assumption]. cbn [map repeat length] in R. now injection R.
Qed.

Theorem array_mixed b ind sf arg ds : loaded_at b -> Forall (mixed_item b ind) ds -> (exists d rc c, In d ds /\ usable b ind d rc c) ->
  exists vs rc, nth_error (recs b) (Z.to_nat ind) = Some rc /\
    set_ocb_array b ind sf arg (map given ds) = Ok (vs, with_rind b ind) /\
    Forall2 (array_done b (choose_sf sf arg) ind rc) ds vs.
Proof.
  intros L M (d0 & rc & c0 & D0 & U0). destruct (loaded_getE b L) as [r0 E0].
  pose proof U0 as ((H & I) & N & _).
  assert (CU : current (at_rec b ind) = Some rc) by (apply current_selected; split; [exact I|exact N]).
  assert (GE : getE (recs b) ind = Ok rc) by (now apply getE_ok).
  assert (RC : forall d rc' c, usable b ind d rc' c -> rc' = rc).
  { intros d rc' c (_ & N' & _). congruence. }
  destruct (mixed_work b ind rc ds H) as (ks & I1 & I2 & I3 & I4 & I5 & I6 & I7).
  { eapply Forall_impl; [|exact M]. intros d X. split; [exact X|]. intros rc' c U. now apply (RC d rc' c). }
  assert (exists k, In k ks /\ k_ok k /\ no_coords [k_v k] = false) as (w & W & KO & NC).
  { clear - I7 D0 U0. apply usable_inside in U0. induction I7 as [|d k ds ks [HI _] F IH]; [destruct D0|]. destruct D0 as [-> |D0].
    - exists k. split; [now left|]. destruct (HI U0) as (A & B & _). auto.
    - destruct (IH D0) as (k' & X & Y). exists k'. split; [now right|exact Y]. }
  destruct (finish_mixed b (choose_sf sf arg) ks I3) as [vs [E3 G]]; [now exists w|].
  exists vs, rc. split; [exact N|]. split; [|eapply mixed_done; eassumption].
  unfold set_ocb_array. rewrite E0. cbn [bind]. cbv zeta. rewrite no_coords_given. unfold normal_coord. rewrite CU. cbn [at_rec CoordModel.hemi blat].
  assert (CK : check_side (CoordModel.hemi b) (mkArr false false true (map w_lat (map given ds))) =
     Ok (Some (map (fun d => if wrong_side (CoordModel.hemi b) (Some (g_lat d)) then None else Some (g_lat d)) ds))).
  { unfold check_side. cbn [el isint].
    assert (FA : forallb (wrong_side (CoordModel.hemi b)) (map w_lat (map given ds)) = false).
    { apply not_true_iff_false. intros T. rewrite forallb_forall in T. specialize (T (Some (g_lat d0))).
      rewrite (inside_right _ _ H (usable_inside _ _ _ _ _ U0)) in T. assert (false = true); [|discriminate]. apply T.
      apply in_map_iff. exists (given d0). split; [reflexivity|]. now apply in_map. }
    rewrite FA. destruct (existsb _ _) eqn:EX.
    - rewrite !map_map. reflexivity.
    - do 2 f_equal. rewrite map_map. apply map_ext_in. intros d D. cbn [given fresh w_lat].
      assert (wrong_side (CoordModel.hemi b) (Some (g_lat d)) = false) as ->; [|reflexivity].
      destruct (wrong_side _ _) eqn:Q; [|reflexivity].
      assert (existsb (wrong_side (CoordModel.hemi b)) (map w_lat (map given ds)) = true); [|congruence].
      apply existsb_exists. exists (Some (g_lat d)). split; [|exact Q]. apply in_map_iff. exists (given d). split; [reflexivity|]. now apply in_map. }
  rewrite CK. cbn [bind el is0d isnd]. rewrite map_map, bc2_maps. cbn [bind]. cbn [given fresh w_lt].
  match goal with |- context [mapE ?f ?l] => rewrite (I4 : mapE f l = _) end. cbn [bind out el]. rewrite !map_map. cbn [fst snd given fresh w_lt]. rewrite I5, I6.
  assert (NCS : no_coords (map k_v ks) = false).
  { unfold no_coords in *. cbn [forallb] in NC. rewrite !andb_true_r in NC. apply orb_false_iff in NC. destruct NC as [NC N3]. apply orb_false_iff in NC. destruct NC as [N1 N2].
    assert (NALL : forall f : vel -> bool, f (k_v w) = false -> forallb f (map k_v ks) = false).
    { intros f Q. apply not_true_iff_false. intros T. rewrite forallb_forall in T. specialize (T (k_v w) (in_map k_v ks w W)). congruence. }
    now rewrite (NALL _ N1), (NALL _ N2), (NALL _ N3). }
  rewrite NCS, GE. cbn [bind]. rewrite map_length, I2, <- I1, E3. reflexivity.
Qed.

(** A scalar on the other side keeps NaN everywhere. *)
Lemma scalar_other b ind d own arg : (CoordModel.hemi b = 1 \/ CoordModel.hemi b = -1)%Z -> loaded_at b -> other_side b d ->
  set_ocb b ind own arg (given d) = Ok (given d, with_rind b ind).
Proof.
  intros H L O. destruct (loaded_getE b L) as [r0 E0].
  assert (W : wrong_side (CoordModel.hemi b) (Some (g_lat d)) = true) by (apply wrong_side_outside; [exact H|exact O]).
  unfold set_ocb. rewrite E0. cbn [bind]. cbv zeta. assert (no_coords [given d] = true) as -> by reflexivity.
  assert (E : coords_of b ind (given d) = Ok (given d)).
  { unfold coords_of, normal_coord. cbn [at_rec CoordModel.hemi given fresh w_lat w_lt]. unfold check_side. cbn [sc0 el existsb forallb]. rewrite W. cbn [orb andb bind].
    destruct (current _); reflexivity. }
  rewrite E. reflexivity.
Qed.

(** Two runs agree. *)
Lemma item_done_unique b sf q v v' : item_done b sf q v -> item_done b sf q v' -> v = v'.
Proof.
  intros (rc & c & ol & om & U & N & F) (rc' & c' & ol' & om' & U' & N' & F').
  assert (rc' = rc) as -> by (destruct U as (_ & X & _); destruct U' as (_ & Y & _); congruence).
  assert (c' = c) as -> by (destruct U as (_ & _ & _ & X & _); destruct U' as (_ & _ & _ & Y & _); congruence).
  rewrite N in N'. injection N' as <- <-.
  destruct F as (n & e & z & E & V). destruct F' as (n' & e' & z' & E' & V'). rewrite E in E'. injection E' as <- <- <-. now rewrite V, V'.
Qed.
