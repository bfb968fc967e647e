(** Proofs about [VectorData] (ScalingModel). *)
From Coq Require Import Reals ZArith List Bool Lia Lra.
From Verif Require Import PyBase RangeModel RangeSpec RangeProofs CoordModel CoordSpec CoordProofs CoordProofs2 DualCoordModel
  VectorModel VectorSpec VectorProofs VectorProofs2 ScalingModel.
Import ListNotations.
Open Scope R_scope.

Definition rmap {A B} (f : A -> B) (r : res A) : res B := x <- r ;; Ok (f x).

(** ** One vector: scalars and one-element arrays *)
Lemma angle_elem_same lt lat plt plat : lat <> None -> plat <> None ->
  pole_angle_elem lt lat plt plat = calc_vec_pole_angle lt lat plt plat.
Proof.
  intros L P. destruct lat as [lat|]; [|congruence]. destruct plat as [plat|]; [|congruence].
  unfold pole_angle_elem, calc_vec_pole_angle. destruct (hr2rad _ PI) as [d|]; [|reflexivity]. cbn [bind]. f_equal.
  destruct (on_meridian d); [|reflexivity]. cbn [andb abs_lt abs_ge].
  destruct (Rlt_dec (Rabs plat) (Rabs lat)); [reflexivity|]. destruct (Rle_dec (Rabs lat) (Rabs plat)); [reflexivity|lra].
Qed.

Lemma adjust_single v : consistent v -> v_lt v <> None -> p_lt v <> None -> p_ang v <> None ->
  adjust_vectors [v] = rmap (fun r => [r]) (adjust_vector v).
Proof.
  intros C H1 H2 H3. destruct (special v) as [r|] eqn:SP.
  - rewrite (adjust_special _ _ SP). unfold adjust_vectors. cbn [existsb].
    assert (N : is_norm v = false) by (destruct (is_norm v) eqn:Q; [apply special_norm in Q; congruence|reflexivity]).
    rewrite N. cbn [orb map]. now rewrite SP.
  - assert (D : defined v \/ ~ (v_n v <> None /\ v_e v <> None)).
    { unfold defined. destruct (v_n v), (v_e v); [left; repeat split; congruence|right; intros [A B]; congruence..]. }
    destruct D as [D|D].
    + destruct (adjust_vectors_spec [v]) as [rs [E F]].
      * intros w [<-|[]]. exact C.
      * right. exists v. split; [now left|auto].
      * inversion F as [|x y l l' [Q _] F' E1 E2]; subst. inversion F'; subst. rewrite E, (Q (or_intror D)). reflexivity.
    + assert (VQ : define_vect_quadrants (v_n v) (v_e v) = 0%Z).
      { unfold define_vect_quadrants. destruct (v_n v), (v_e v); try reflexivity. exfalso. apply D. split; congruence. }
      assert (QZ : v_q v = 0%Z) by (destruct C as [[Q|Q] _]; [exact Q|now rewrite Q]).
      destruct (pole_quad_total (v_lt v) (p_lt v) (p_ang v)) as [pq PQ].
      unfold adjust_vector. rewrite SP, QZ. cbn [Z.eqb]. rewrite VQ.
      assert (exists q, (if (p_q v =? 0)%Z then define_pole_quadrants (v_lt v) (p_lt v) (p_ang v) else Ok (p_q v)) = Ok q) as [q Q]
        by (destruct (p_q v =? 0)%Z; eauto).
      rewrite Q. cbn [bind]. unfold calc_dest_polar_angle at 1. replace (quad_ok 0) with false by reflexivity.
      assert (R : adjust_vectors [v] = Err ValueError).
      { unfold adjust_vectors. cbn [existsb]. assert (N : is_norm v = true) by now apply special_norm. rewrite N. cbn [orb].
        destruct (requad_map [v]) as (rv & rp & E & RV & RP). rewrite E. cbn [bind map existsb].
        assert (v_q (requad1 rv rp v) = 0%Z) as ->.
        { cbn [requad1 with_quads v_q]. destruct rv; [exact VQ|exact QZ]. }
        replace (quad_ok 0) with false by reflexivity. cbn [orb negb].
        destruct (negb (quad_ok (p_q (requad1 rv rp v)) || false)); reflexivity. }
      rewrite R. cbn [negb]. destruct (negb (quad_ok q)); reflexivity.
Qed.

Lemma some_ne {A} (x : A) : Some x <> None. Proof. discriminate. Qed.
Lemma isnan_false (x : fl) : isnan x = false -> x <> None. Proof. now destruct x. Qed.

Lemma finish_single b sf rc v : finish b sf [rc] [v] =
  match sf with
  | None => rmap (fun w => [w]) (finish1 b None rc v)
  | Some _ => finish b sf [rc] [v]
  end.
Proof.
  destruct sf as [f|]; [reflexivity|]. unfold finish, finish1. cbv zeta. cbn [combine map mapE snd fst].
  set (v2 := put_radii v _ _). destruct (pole_loc_spec (phic rc) (rcent rc)) as [p (E & _)]. rewrite E. cbn [bind forallb].
  rewrite !andb_true_r. destruct (isnan (w_lt v2)) eqn:L1; [reflexivity|]. destruct (isnan (w_lat v2)) eqn:L2; [reflexivity|].
  cbn [orb combine mapE fst snd]. apply isnan_false in L1. apply isnan_false in L2. rewrite angle_elem_same by (assumption || discriminate).
  destruct (calc_vec_pole_angle _ _ _ _) as [ang|] eqn:EA; [|reflexivity]. cbn [bind forallb]. rewrite andb_true_r.
  destruct (isnan ang) eqn:LA; [reflexivity|]. apply isnan_false in LA. cbn [combine mapE fst snd].
  destruct (define_pole_quadrants (w_lt v2) (Some p) ang) as [q|] eqn:EQ; [|reflexivity]. cbn [bind].
  rewrite adjust_single.
  - destruct (adjust_vector _) as [[[n e] z]|]; reflexivity.
  - split; right; cbn [v_q v_n v_e v_lt p_lt p_ang p_q]; auto.
  - exact L1.
  - discriminate.
  - exact LA.
Qed.

Lemma no_coords1 v : no_coords [v] = isnan (w_olat v) || isnan (w_omlt v) || isnan (w_rc v).
Proof. unfold no_coords. cbn [forallb]. now rewrite !andb_true_r. Qed.

Lemma normal_coord_one b z n z' i' n' lat lt : exists l m c zz,
  normal_coord b (mkArr z false n [lat]) (mkArr z' i' n' [lt]) = Ok (out (z && z') [l], out (z && z') [m], out zz [c], [lat]) /\
  normal_coord b (sc0 lat) (sc0 lt) = Ok (out true [l], out true [m], out true [c], [lat]).
Proof.
  unfold normal_coord, sc0. destruct (current b) as [rc|].
  - unfold check_side. cbn [el existsb forallb isint]. rewrite orb_false_r, andb_true_r. destruct (wrong_side (CoordModel.hemi b) lat) eqn:W.
    + cbn [bind]. exists None, None, None, (z && z'). unfold all_nan, max_len. cbn [forallb is0d]. rewrite andb_true_r. destruct z, z'; split; reflexivity.
    + cbn [bind bc2 map]. destruct (normal_pt_total (CoordModel.hemi b) (blat b) rc lat lt) as [l [mm [E _]]].
      cbn [mapE fst snd]. rewrite E. cbn [bind map fst snd is0d isnd el].
      eexists l, mm, (rfun rc lt), _. destruct n; split; reflexivity.
  - exists None, None, None, (z && z'). unfold all_nan, max_len. cbn [forallb is0d]. rewrite andb_true_r. destruct z, z'; split; reflexivity.
Qed.

Lemma array_single b ind v :
  set_ocb_array b ind None None [v] = rmap (fun r => ([fst r], snd r)) (set_ocb b ind None None v).
Proof.
  unfold set_ocb_array, set_ocb. destruct (getE (recs b) (rind b)) as [r0|]; [|reflexivity]. cbn [bind map]. cbv zeta.
  set (b' := if no_coords [v] then at_rec b ind else b).
  match goal with |- (vs1 <- ?X ;; _) = _ => assert (E : X = rmap (fun w => [w]) (if no_coords [v] then coords_of b ind v else Ok v)) end.
  { destruct (no_coords [v]); [|reflexivity]. unfold coords_of.
    destruct (normal_coord_one (at_rec b ind) false true false false true (w_lat v) (w_lt v)) as (l & m & c & zz & E1 & E2).
    rewrite E1, E2. reflexivity. }
  rewrite E. destruct (if no_coords [v] then coords_of b ind v else Ok v) as [v1|]; [|reflexivity]. cbn [rmap bind].
  destruct (no_coords [v1]); [reflexivity|]. destruct (getE (recs b) ind) as [rc|]; [|reflexivity]. cbn [bind length repeat choose_sf].
  rewrite finish_single. destruct (finish1 b None rc v1); reflexivity.
Qed.

Lemma matched_single b ind v r0 rc : getE (recs b) (rind b) = Ok r0 -> getE (recs b) ind = Ok rc ->
  set_ocb_matched b [ind] None None [v] = rmap (fun r => ([fst r], snd r)) (set_ocb b ind None None v).
Proof.
  intros E0 E1. unfold set_ocb_matched, set_ocb. rewrite E0. cbn [mapE bind map]. rewrite E1. cbn [bind combine mapE fst snd]. cbv zeta.
  unfold last_rec. cbn [fold_left].
  set (b' := if no_coords [v] then at_rec b ind else b).
  match goal with |- (vs1 <- ?X ;; _) = _ => assert (E : X = rmap (fun w => [w]) (if no_coords [v] then coords_of b ind v else Ok v)) end.
  { destruct (no_coords [v]); [|reflexivity]. destruct (coords_of b ind v); reflexivity. }
  rewrite E. destruct (if no_coords [v] then coords_of b ind v else Ok v) as [v1|]; [|reflexivity]. cbn [rmap bind].
  destruct (no_coords [v1]); [reflexivity|]. cbn [choose_sf].
  rewrite finish_single. destruct (finish1 b None rc v1); reflexivity.
Qed.

(** ** Several vectors *)
Lemma angle_total a v b p : -90 < v < 90 -> 0 < p <= 90 -> exists A,
  calc_vec_pole_angle (Some a) (Some v) (Some b) (Some p) = Ok (Some A) /\
  pole_angle_elem (Some a) (Some v) (Some b) (Some p) = Ok (Some A) /\ 0 <= A <= 180.
Proof.
  intros V P. destruct (del_long_spec a b) as [d (E & B & C & S & T)].
  destruct (on_meridian (Some d)) eqn:M.
  - unfold calc_vec_pole_angle, pole_angle_elem. rewrite E. cbn [bind]. rewrite M. cbn [andb abs_lt abs_ge].
    eexists. split; [reflexivity|]. destruct (Rlt_dec (Rabs p) (Rabs v)).
    + split; [reflexivity|lra].
    + destruct (Rle_dec (Rabs v) (Rabs p)); [|lra]. split; [reflexivity|lra].
  - assert (O : off_meridian a b).
    { intros [k K]. destruct (Z.Even_or_Odd k) as [[j J]|[j J]]; subst k.
      - assert (D : d = 0).
        { pose proof (meridian_del a b d 0 (or_introl eq_refl)) as X. destruct (Req_EM_T 0 0); [|lra].
          apply X; [exists j; rewrite mult_IZR in K; lra|exact B|exact T]. }
        assert (on_meridian (Some d) = true) by (apply on_meridian_iff; auto). congruence.
      - assert (D : d = - PI).
        { pose proof (meridian_del a b d 12 (or_intror eq_refl)) as X. destruct (Req_EM_T 12 0); [lra|].
          apply X; [exists (j + 1)%Z; rewrite plus_IZR, mult_IZR in K; rewrite plus_IZR; lra|exact B|exact T]. }
        assert (on_meridian (Some d) = true) by (apply on_meridian_iff; auto). congruence. }
    destruct (pole_angle_general a v b p O V ltac:(lra) ltac:(lra)) as [A (E1 & E2 & E3 & _)]. exists A. auto.
Qed.

Lemma mapE_map {A B C} (f : B -> res C) (g : A -> B) (h : A -> C) l :
  (forall x, In x l -> f (g x) = Ok (h x)) -> mapE f (map g l) = Ok (map h l).
Proof.
  induction l as [|x l IH]; intros H; [reflexivity|]. cbn [map mapE]. rewrite (H x) by now left. cbn [bind].
  rewrite IH by (intros y Y; apply H; now right). reflexivity.
Qed.
Lemma combine_maps {A B C} (f : A -> B) (g : A -> C) l : combine (map f l) (map g l) = map (fun x => (f x, g x)) l.
Proof. induction l; cbn; congruence. Qed.

(** A vector whose data are numbers, north or south of the equator but not at a pole. *)
Definition good_vel (v : vel) : Prop :=
  exists lat lt n e z, w_lat v = Some lat /\ w_lt v = Some lt /\ w_n v = Some n /\ w_e v = Some e /\ w_z v = Some z /\ -90 < lat < 90.

(** What [set_ocb] leaves in the vector once its coordinates are known. *)
Definition finished (b : bnd) (sf : option sfun) (rc : rec) (v v' : vel) : Prop :=
  exists n e z, vector_to_boundary (w_lt v) (w_lat v) (w_n v) (w_e v) (w_z v) (Some (phic rc)) (Some (rcent rc)) = Ok (n, e, z) /\
  let u := fmap (fun c => rr rc + c) (w_rc v) in
  let s := Some (90 - Rabs (blat b)) in
  v' = put_out (put_radii v u s) (scaled sf n u s) (scaled sf e u s) (scaled sf z u s).

Record work := mkWork { k_rc : rec; k_v : vel; k_lt : fl; k_lat : fl; k_ang : fl; k_q : Z }.
Definition k_vin (k : work) : vin :=
  mkVin (w_lt (k_v k)) (w_lat (k_v k)) (w_n (k_v k)) (w_e (k_v k)) (w_z (k_v k)) (define_vect_quadrants (w_n (k_v k)) (w_e (k_v k)))
        (k_lt k) (k_lat k) (k_ang k) (k_q k).
Definition k_ok (k : work) : Prop :=
  get_pole_loc (Some (phic (k_rc k))) (Some (rcent (k_rc k))) = Ok (k_lt k, k_lat k) /\
  k_lt k <> None /\ k_ang k <> None /\ w_lt (k_v k) <> None /\ w_lat (k_v k) <> None /\ w_n (k_v k) <> None /\ w_e (k_v k) <> None /\
  calc_vec_pole_angle (w_lt (k_v k)) (w_lat (k_v k)) (k_lt k) (k_lat k) = Ok (k_ang k) /\
  pole_angle_elem (w_lt (k_v k)) (w_lat (k_v k)) (k_lt k) (k_lat k) = Ok (k_ang k) /\
  define_pole_quadrants (w_lt (k_v k)) (k_lt k) (k_ang k) = Ok (k_q k).

Lemma work_exists rc v : 0 <= rcent rc < 90 -> good_vel v -> exists k, k_rc k = rc /\ k_v k = v /\ k_ok k.
Proof.
  intros R (lat & lt & n & e & z & H1 & H2 & H3 & H4 & H5 & L).
  destruct (pole_loc_spec (phic rc) (rcent rc)) as [p (E & _)].
  destruct (angle_total lt lat p (90 - rcent rc) L ltac:(lra)) as [A (E1 & E2 & _)].
  destruct (pole_quad_total (Some lt) (Some p) (Some A)) as [q Q].
  exists (mkWork rc v (Some p) (Some (90 - rcent rc)) (Some A) q). split; [reflexivity|]. split; [reflexivity|].
  unfold k_ok. cbn. rewrite H1, H2, H3, H4. repeat (split; [first [exact E|discriminate|exact E1|exact E2]|]). exact Q.
Qed.
Lemma works_exist qs : Forall (fun q => 0 <= rcent (fst q) < 90 /\ good_vel (snd q)) qs ->
  exists ks, map k_rc ks = map fst qs /\ map k_v ks = map snd qs /\ Forall k_ok ks.
Proof.
  induction 1 as [|[rc v] qs [R G] _ (ks & I1 & I2 & I3)].
  - exists []. auto.
  - destruct (work_exists rc v R G) as (k & K1 & K2 & K3). exists (k :: ks). cbn. rewrite K1, K2, I1, I2. auto.
Qed.

Lemma k_to_boundary k r : k_ok k -> adjust_vector (k_vin k) = Ok r ->
  vector_to_boundary (w_lt (k_v k)) (w_lat (k_v k)) (w_n (k_v k)) (w_e (k_v k)) (w_z (k_v k)) (Some (phic (k_rc k))) (Some (rcent (k_rc k))) = Ok r.
Proof.
  intros (E & _ & _ & _ & _ & _ & _ & EA & _ & EQ) H. unfold vector_to_boundary. rewrite E. cbn [bind fst snd]. rewrite EA. cbn [bind].
  rewrite EQ. cbn [bind]. exact H.
Qed.

Lemma finish_spec b sf ks : ks <> [] -> Forall k_ok ks ->
  exists vs', finish b sf (map k_rc ks) (map k_v ks) = Ok vs' /\
    Forall2 (fun k v' => finished b sf (k_rc k) (k_v k) v') ks vs'.
Proof.
  intros NE OKS. rewrite Forall_forall in OKS. unfold finish. cbv zeta. rewrite combine_maps, map_map. cbn [fst snd].
  set (rad := fun k => put_radii (k_v k) (fmap (fun c => rr (k_rc k) + c) (w_rc (k_v k))) (Some (90 - Rabs (blat b)))).
  fold rad. change (map (fun x => rad x) ks) with (map rad ks).
  rewrite (mapE_map _ _ (fun k => (k_lt k, k_lat k))) by (intros k K; apply (OKS k K)). cbn [bind].
  assert (N1 : forallb (fun v => isnan (w_lt v)) (map rad ks) = false).
  { destruct ks as [|k ks]; [congruence|]. cbn [map forallb]. destruct (OKS k) as (_ & _ & _ & L & _); [now left|].
    cbn. now destruct (w_lt (k_v k)). }
  assert (N2 : forallb (fun v => isnan (w_lat v)) (map rad ks) = false).
  { destruct ks as [|k ks]; [congruence|]. cbn [map forallb]. destruct (OKS k) as (_ & _ & _ & _ & L & _); [now left|].
    cbn. now destruct (w_lat (k_v k)). }
  rewrite N1, N2. cbn [orb]. rewrite combine_maps.
  rewrite (mapE_map _ _ k_ang). 2:{ intros k K. cbn [fst snd]. apply (OKS k K). } cbn [bind].
  assert (N3 : forallb isnan (map k_ang ks) = false).
  { destruct ks as [|k ks]; [congruence|]. cbn [map forallb]. destruct (OKS k) as (_ & _ & L & _); [now left|]. now destruct (k_ang k). }
  rewrite N3, combine_maps, combine_maps.
  rewrite (mapE_map _ _ k_vin).
  2:{ intros k K. cbn [fst snd]. destruct (OKS k K) as (_ & _ & _ & _ & _ & _ & _ & _ & _ & EQ). cbn. unfold rad, put_radii. cbn [w_lt].
      rewrite EQ. reflexivity. }
  cbn [bind].
  assert (CS : forall v, In v (map k_vin ks) -> consistent v /\ defined v).
  { intros v Hv. apply in_map_iff in Hv. destruct Hv as [k [<- K]]. destruct (OKS k K) as (_ & A1 & A2 & A3 & _ & A5 & A6 & _ & _ & EQ).
    split; [split; right; [reflexivity|exact EQ]|]. unfold defined, k_vin. cbn. auto. }
  destruct (adjust_vectors_spec (map k_vin ks)) as [rs [E F]].
  { intros v Hv. apply CS, Hv. }
  { destruct (existsb is_norm (map k_vin ks)) eqn:X.
    - right. apply existsb_exists in X. destruct X as [v [H1 H2]]. exists v. split; [exact H1|]. split; [now apply special_norm|apply CS, H1].
    - left. intros v Hv S. apply special_norm in S.
      assert (existsb is_norm (map k_vin ks) = true) by (apply existsb_exists; eauto). congruence. }
  rewrite E. cbn [bind]. eexists. split; [reflexivity|].
  assert (F' : Forall2 (fun k r => adjust_vector (k_vin k) = Ok r) ks rs).
  { clear - F CS. revert rs F. induction ks as [|k ks IH]; intros rs F; inversion F as [|x y l l' [H1 _] H2]; subst; constructor.
    - apply H1. right. apply CS. now left.
    - apply IH; [|assumption]. intros v Hv. apply CS. now right. }
  clear E F N1 N2 N3 NE CS. revert OKS. induction F' as [|k [[n e] z] ks rs A F' IH]; intros OKS; cbn [map combine]; constructor.
  - exists n, e, z. split; [apply k_to_boundary; [apply OKS; now left|exact A]|]. reflexivity.
  - apply IH. intros j J. apply OKS. now right.
Qed.

(** Scalars, without scaling. *)
Lemma finish1_spec b k r : k_ok k -> adjust_vector (k_vin k) = Ok r ->
  exists v', finish1 b None (k_rc k) (k_v k) = Ok v' /\ finished b None (k_rc k) (k_v k) v'.
Proof.
  intros K A. pose proof (k_to_boundary k r K A) as V. destruct K as (E & A1 & A2 & A3 & A4 & A5 & A6 & EA & _ & EQ).
  unfold finish1. cbv zeta. rewrite E. cbn [bind fst snd put_radii w_lt w_lat w_n w_e w_z].
  destruct (isnan (w_lt (k_v k))) eqn:L1; [destruct (w_lt (k_v k)); [discriminate|congruence]|].
  destruct (isnan (w_lat (k_v k))) eqn:L2; [destruct (w_lat (k_v k)); [discriminate|congruence]|]. cbn [orb].
  rewrite EA. cbn [bind]. destruct (isnan (k_ang k)) eqn:L3; [destruct (k_ang k); [discriminate|congruence]|].
  rewrite EQ. cbn [bind]. unfold k_vin in A. rewrite A. cbn [bind]. destruct r as [[n e] z]. eexists. split; [reflexivity|].
  exists n, e, z. split; [exact V|]. reflexivity.
Qed.
