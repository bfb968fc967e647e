(** Proofs about [set_ocb] with a DualBoundary. *)
From Coq Require Import Reals ZArith List Bool Lia Lra.
From Verif Require Import PyBase RangeModel RangeSpec RangeProofs CoordModel CoordSpec CoordProofs CoordProofs2
  DualCoordModel DualCoordSpec DualCoordProofs DualCoordProofs2 PropertiesDualCoord
  VectorModel ScalingModel ScalingSpec ScalingProofs ScalingProofs2 ScalingProofs3 ScalingProofs4 ScalingProofs5 VdualModel VdualSpec.
Import ListNotations.
Open Scope R_scope.

(** ** Another latitude *)
Definition relat (v : vel) (x : fl) : vel :=
  mkVel (w_lat v) (w_lt v) (w_n v) (w_e v) (w_z v) x (w_omlt v) (w_rc v) (w_unr v) (w_scr v) (w_on v) (w_oe v) (w_oz v) (w_omag v).
Lemma relat_same v x : same_but_latitude (relat v x) v.
Proof. repeat split. Qed.
Lemma finish1_relat b sf rc v x : finish1 b sf rc (relat v x) = match finish1 b sf rc v with Ok w => Ok (relat w x) | Err e => Err e end.
Proof.
  unfold finish1. cbv zeta. cbn [relat put_radii w_lt w_lat w_n w_e w_z w_rc].
  destruct (get_pole_loc _ _) as [p|]; [|reflexivity]. cbn [bind]. destruct (isnan _ || isnan _); [reflexivity|].
  destruct (calc_vec_pole_angle _ _ _ _) as [a|]; [|reflexivity]. cbn [bind]. destruct (isnan a); [reflexivity|].
  destruct (define_pole_quadrants _ _ _) as [q|]; [|reflexivity]. cbn [bind]. destruct (adjust_vector _) as [[[n e] z]|]; [|reflexivity].
  cbn [bind]. destruct sf; reflexivity.
Qed.
Lemma finished_relat b sf rc v v' x : finished b sf rc v v' -> finished b sf rc (relat v x) (relat v' x).
Proof. intros (n & e & z & E & ->). exists n, e, z. split; [exact E|]. reflexivity. Qed.
Lemma relat_back v x : relat (relat v x) (w_olat v) = v.
Proof. now destruct v. Qed.

(** ** The pair selected *)
Definition moved (d : dualc) (k io ie : Z) : dualc :=
  mkDual (at_rec (d_o d) io) (at_rec (d_e d) ie) (d_oi d) (d_ei d) (d_n d) k (d_os d) (d_es d).
Lemma nth_range {A} (l : list A) i x : nth_error l i = Some x -> (i < length l)%nat.
Proof. intros H. apply nth_error_Some. congruence. Qed.
Lemma moved_spec d k io ie orc erc : pair_at d k io ie orc erc -> set_rec d k = Ok (moved d k io ie) /\ paired (moved d k io ie) orc erc.
Proof.
  intros [R OI EI [O0 O] [E0 E] H SO SE]. pose proof (nth_range _ _ _ OI). pose proof (nth_range _ _ _ EI).
  pose proof (nth_range _ _ _ O). pose proof (nth_range _ _ _ E). split.
  - unfold set_rec. cbv zeta. replace (k <? 0)%Z with false by (symmetry; apply Z.ltb_ge; lia).
    replace (d_n d <=? k)%Z with false by (symmetry; apply Z.leb_gt; lia).
    rewrite (getE_ok (d_oi d) k io ltac:(lia) OI), (getE_ok (d_ei d) k ie ltac:(lia) EI). reflexivity.
  - constructor; cbn; try assumption; (split; cbn; [lia|assumption]).
Qed.
Lemma moved_config d k io ie : dual_config d -> dual_config (moved d k io ie).
Proof. intros H. exact H. Qed.
Lemma pair_rec d k io ie orc erc : pair_at d k io ie orc erc -> ocb_rec d k = Ok orc /\ pair_time d k = Ok io.
Proof.
  intros [R OI _ [O0 O] _ _ _ _]. unfold ocb_rec, pair_time. pose proof (nth_range _ _ _ OI). pose proof (nth_range _ _ _ O).
  rewrite (getE_ok (d_oi d) k io ltac:(lia) OI). cbn [bind]. split; [|reflexivity]. apply getE_ok; [lia|exact O].
Qed.
Lemma loaded_time d : dual_loaded d -> exists i, pair_time d (d_rec d) = Ok i.
Proof.
  intros L. unfold dual_loaded in L. unfold pair_time, getE, py_get. cbv zeta.
  destruct ((0 <=? d_rec d) && (d_rec d <? Z.of_nat (length (d_oi d))))%Z eqn:E.
  - apply andb_true_iff in E. destruct E as [E1 E2]. apply Z.leb_le in E1. apply Z.ltb_lt in E2.
    destruct (nth_error (d_oi d) _) as [r|] eqn:N; [eauto|]. apply nth_error_None in N. lia.
  - assert ((- Z.of_nat (length (d_oi d)) <=? d_rec d) && (d_rec d <? 0) = true)%Z as ->.
    { apply andb_false_iff in E. apply andb_true_iff. split; [apply Z.leb_le; lia|]. apply Z.ltb_lt.
      destruct E as [E|E]; [apply Z.leb_gt in E; lia|apply Z.ltb_ge in E; lia]. }
    destruct (nth_error (d_oi d) _) as [r|] eqn:N; [eauto|]. apply nth_error_None in N. lia.
Qed.

(** ** Coordinates *)
Lemma site_usable d k io ie orc erc w ro re : pair_at d k io ie orc erc -> dual_config d -> sited d orc erc w ro re ->
  exists c, usable (d_o d) io w orc c /\ 0 < rr orc + c.
Proof.
  intros P (H & _) [L _ (c & C & R) _ _ _ RC]. pose proof (nth_range _ _ _ (proj2 (pa_o _ _ _ _ _ _ P))). pose proof (proj1 (pa_o _ _ _ _ _ _ P)).
  exists c. split; [|exact R]. split; [split; [exact H|lia]|]. split; [apply (pa_o _ _ _ _ _ _ P)|]. split; [exact L|]. split; [exact C|]. split; [lra|exact RC].
Qed.

Definition lat_in (d : dualc) (w : datum) (ro re ol : R) : R :=
  let h := hemi (d_o d) in let obl := blat (d_o d) in let ebl := blat (d_e d) in
  let o := IZR h * (90 - ro) in let e := IZR h * (90 - re) in
  if Rle_dec (colat h (g_lat w)) ro then ol
  else if Rle_dec (colat h (g_lat w)) re then obl - (o - g_lat w) * (obl - ebl) / (o - e)
  else ebl - (e - g_lat w) * (ebl / e).

(** The results of dual [normal_coord] at a point, whatever the other points. *)
Lemma site_coords d k io ie orc erc w ro re c : pair_at d k io ie orc erc -> dual_config d -> sited d orc erc w ro re -> in_region d orc w ro ->
  usable (d_o d) io w orc c ->
  exists bl ol om, bl = lat_in d w ro re ol /\
    normal_coord (at_rec (d_o d) io) (sc (Some (g_lat w))) (sc (Some (g_lt w))) =
      Ok (out true [Some ol], out true [Some om], out true [Some c], [Some (g_lat w)]) /\
    (in_cap d orc w ro -> bl = ol /\ IZR (hemi (d_o d)) * blat (d_o d) <= IZR (hemi (d_o d)) * bl) /\
    (forall lat lt n ow i, dual_args lat lt n -> (i < n)%nat -> belem (el lat) i = Some (g_lat w) -> belem (el lt) i = Some (g_lt w) ->
       exists d' BL M L C, dual_normal (moved d k io ie) lat lt ow = (d', Ok (BL, M, L, C)) /\
         paired d' orc erc /\ (exists os es, d' = put_stores (moved d k io ie) os es) /\
         length (el BL) = n /\ length (el M) = n /\ length (el C) = n /\
         nth_error (el BL) i = Some (Some bl) /\ nth_error (el M) i = Some (Some om) /\ nth_error (el C) i = Some (Some c)).
Proof.
  intros P DC [SL MO RP Bo Be [Hr H90] RC] REG U.
  destruct (moved_spec _ _ _ _ _ _ P) as [_ PD]. pose proof DC as [Hh [He [E0 [EO O90]]]].
  destruct (usable_coords _ _ _ _ _ U) as (ol & om & NC & _ & NP & _). pose proof U as (_ & _ & _ & Fc & _).
  set (h := hemi (d_o d)) in *. set (obl := blat (d_o d)) in *. set (ebl := blat (d_e d)) in *.
  assert (Hin : in_hemisphere h (g_lat w)) by (unfold in_hemisphere; lra).
  assert (CO : config_ok h obl) by (split; [exact Hh|]; lra).
  assert (R0 : 0 < rr orc + c) by (destruct RP as (c' & F & R); rewrite Fc in F; injection F as <-; exact R).
  destruct (cap_value h obl orc (g_lat w) (g_lt w) c ol om CO Fc R0 NP) as [V1 [V2 V3]].
  assert (VAL : exists bl, bl = lat_in d w ro re ol /\ (in_cap d orc w ro -> bl = ol /\ IZR h * obl <= IZR h * bl) /\
     forall flag, bound_lat obl ebl flag (Some (g_lat w), Some ol, (Some (IZR h * (90 - ro)), Some (IZR h * (90 - re)))) = Some bl).
  { exists (lat_in d w ro re ol). split; [reflexivity|]. unfold lat_in. cbv zeta. fold h obl ebl.
    destruct (Rle_dec (colat h (g_lat w)) ro) as [X|X].
    - destruct REG as [[_ (c' & F & D)]|X']; [|fold h in X'; lra]. rewrite Fc in F. injection F as <-. fold h in D. apply V1 in D.
      split; [auto|]. intros flag. apply (bound_cap h obl ebl ro re (g_lat w) Hh E0 EO Hr H90 Hin flag ol X D).
    - apply Rnot_le_lt in X. destruct (Rle_dec (colat h (g_lat w)) re) as [Y|Y]; (split; [intros [Z _]; exfalso; fold h in Z; clear - X Z; lra|]); intros flag.
      + apply (bound_mid h obl ebl ro re (g_lat w) Hh E0 EO Hr H90 Hin flag _ (conj X Y)).
      + apply Rnot_le_lt in Y. apply (bound_out h obl ebl ro re (g_lat w) Hh E0 EO Hr H90 Hin flag _ Y). }
  destruct VAL as (bl & EBL & CAP & VAL). exists bl, ol, om. split; [exact EBL|]. split; [exact NC|]. split; [exact CAP|].
  intros lat lt n ow i A Hi El Et.
  destruct (dual_normal_elem (moved d k io ie) orc erc lat lt n ow i (g_lat w) (g_lt w) PD A Hi El Et Hh Hin RP)
    as (d' & BL & M & L & C & bl' & mm & l & flag & ob & eb & m1 & m2 & EQ & PD' & ST & _ & _ & _ & _ & _ & _ & _ & LB & LM & LC & IB & IM & IL & IC & NP' & W1 & W2 & B1 & B2 & V & _).
  cbn [moved d_o at_rec hemi blat d_e] in NP', B1, B2, V. fold h in NP', B1, B2. fold obl ebl in V. fold obl in NP'.
  rewrite NP in NP'. injection NP' as <- <-.
  destruct (mlt_ok_eq _ _ _ _ _ MO W1 W2) as [S1 [S2 [F1 F2]]].
  rewrite (boundary_pt_at _ _ _ _ _ Hh Bo S2 F1) in B1. injection B1 as <-.
  rewrite (boundary_pt_at _ _ _ _ _ Hh Be S1 F2) in B2. injection B2 as <-.
  rewrite VAL in V. subst bl'. rewrite Fc in IC. exists d', BL, M, L, C. auto 12.
Qed.

Lemma sc_args x y : dual_args (sc x) (sc y) 1 /\ dual_args (sc0 x) (sc0 y) 1.
Proof. unfold dual_args, wf_arr. cbn. repeat split; discriminate. Qed.

Lemma one_elem {A} (l : list A) x : length l = 1%nat -> nth_error l 0 = Some x -> l = [x].
Proof. destruct l as [|y [|]]; cbn; intros H E; try discriminate. congruence. Qed.

(** One vector. *)
Lemma coords_dual_spec d k io ie orc erc w ro re : pair_at d k io ie orc erc -> dual_config d -> sited d orc erc w ro re -> in_region d orc w ro ->
  exists d' c bl ol om, bl = lat_in d w ro re ol /\ usable (d_o d) io w orc c /\ 0 < rr orc + c /\
    normal_coord (at_rec (d_o d) io) (sc (Some (g_lat w))) (sc (Some (g_lt w))) =
      Ok (out true [Some ol], out true [Some om], out true [Some c], [Some (g_lat w)]) /\
    coords_of (d_o d) io (given w) = Ok (after_coords w ol om c) /\
    coords_of_dual d k (given w) = (d', Ok (relat (after_coords w ol om c) (Some bl))) /\
    paired d' orc erc /\ (exists os es, d' = put_stores (moved d k io ie) os es) /\
    (in_cap d orc w ro -> bl = ol /\ IZR (hemi (d_o d)) * blat (d_o d) <= IZR (hemi (d_o d)) * bl) /\
    (exists BL M L C, dual_normal (moved d k io ie) (sc (Some (g_lat w))) (sc (Some (g_lt w))) false = (d', Ok (BL, M, L, C)) /\ el BL = [Some bl]) /\
    (forall lat lt n ow i, dual_args lat lt n -> (i < n)%nat -> belem (el lat) i = Some (g_lat w) -> belem (el lt) i = Some (g_lt w) ->
       exists d' BL M L C, dual_normal (moved d k io ie) lat lt ow = (d', Ok (BL, M, L, C)) /\
         paired d' orc erc /\ (exists os es, d' = put_stores (moved d k io ie) os es) /\
         length (el BL) = n /\ length (el M) = n /\ length (el C) = n /\
         nth_error (el BL) i = Some (Some bl) /\ nth_error (el M) i = Some (Some om) /\ nth_error (el C) i = Some (Some c)).
Proof.
  intros P DC S REG. destruct (site_usable _ _ _ _ _ _ _ _ _ P DC S) as (c & U & R0).
  destruct (site_coords _ _ _ _ _ _ _ _ _ _ P DC S REG U) as (bl & ol & om & EBL & NC & CAP & ALL).
  destruct (usable_coords _ _ _ _ _ U) as (ol' & om' & NC' & CO & _). rewrite NC in NC'. injection NC' as <- <-.
  destruct (ALL (sc (Some (g_lat w))) (sc (Some (g_lt w))) 1%nat false 0%nat (proj1 (sc_args _ _)) ltac:(lia) eq_refl eq_refl)
    as (d' & BL & M & L & C & EQ & PD & ST & LB & LM & LC & IB & IM & IC).
  exists d', c, bl, ol, om. split; [exact EBL|]. split; [exact U|]. split; [exact R0|]. split; [exact NC|]. split; [exact CO|]. split; [|split; [exact PD|split; [exact ST|split; [exact CAP|split; [|exact ALL]]]]].
  - unfold coords_of_dual, dual_coords. destruct (moved_spec _ _ _ _ _ _ P) as [-> _]. cbn [given fresh w_lat w_lt].
    change (dual_normal (moved d k io ie) (sc0 (Some (g_lat w))) (sc0 (Some (g_lt w))) false) with
      (dual_normal (moved d k io ie) (sc (Some (g_lat w))) (sc (Some (g_lt w))) false). rewrite EQ. cbn [bind].
    unfold first. rewrite (one_elem _ _ LB IB), (one_elem _ _ LM IM), (one_elem _ _ LC IC). reflexivity.
  - exists BL, M, L, C. split; [exact EQ|]. apply (one_elem _ _ LB IB).
Qed.

(** What is left of the pairs after a call. *)
Lemma pair_kept d k io ie orc erc k' io' ie' orc' erc' d' :
  pair_at d k io ie orc erc -> pair_at d k' io' ie' orc' erc' -> paired d' orc erc -> (exists os es, d' = put_stores (moved d k io ie) os es) ->
  pair_at d' k' io' ie' orc' erc'.
Proof.
  intros P [R OI EI O E H SO SE] PD (os & es & ->). constructor; cbn; try assumption; [apply (p_so _ _ _ PD)|apply (p_se _ _ _ PD)].
Qed.

(** ** One vector *)
Lemma finish1_total b sf rc v c : 0 <= rcent rc < 90 -> good_vel v -> w_rc v = Some c ->
  exists v', finish1 b sf rc v = Ok v' /\ w_unr v' = Some (Some (rr rc + c)) /\ w_scr v' = Some (Some (90 - Rabs (blat b))).
Proof.
  intros R G Hc. destruct (work_exists rc v R G) as (k & K1 & K2 & K3). destruct G as (lat & lt & n & e & z & H1 & H2 & H3 & H4 & H5 & L).
  destruct (adjust_total k K3) as [r A]; [rewrite K2; congruence..|].
  destruct K3 as (E & A1 & A2 & A3 & A4 & A5 & A6 & EA & _ & EQ). unfold k_vin in A. rewrite K1, K2 in *.
  unfold finish1. cbv zeta. rewrite E. cbn [bind fst snd put_radii w_lt w_lat w_n w_e w_z].
  rewrite H1, H2 in *. cbn [isnan orb]. rewrite EA. cbn [bind].
  destruct (isnan (k_ang k)) eqn:L3; [destruct (k_ang k); [discriminate|congruence]|].
  rewrite EQ. cbn [bind]. rewrite A. cbn [bind]. destruct r as [[n' e'] z']. rewrite Hc. destruct sf; eexists; repeat split.
Qed.

Lemma dual_scalar d k io ie orc erc w ro re own arg :
  dual_loaded d -> dual_config d -> pair_at d k io ie orc erc -> sited d orc erc w ro re -> in_region d orc w ro ->
  exists d' u bl c, set_ocb_dual d k own arg (given w) = (d', Ok (relat u (Some bl))) /\
    set_ocb (with_rind (d_o d) io) io own arg (given w) = Ok (u, with_rind (d_o d) io) /\
    paired d' orc erc /\ (exists os es, d' = put_stores (moved d k io ie) os es) /\ dual_latitude d k w bl /\
    rfun orc (Some (g_lt w)) = Some c /\ ScalingSpec.radii u = (Some (Some (rr orc + c)), Some (Some (90 - Rabs (blat (d_o d))))) /\
    (exists BL M L C, dual_normal (moved d k io ie) (sc (Some (g_lat w))) (sc (Some (g_lt w))) false = (d', Ok (BL, M, L, C))) /\
    (in_cap d orc w ro -> IZR (hemi (d_o d)) * blat (d_o d) <= IZR (hemi (d_o d)) * bl) /\ w_rc u = Some c /\ bl = lat_in d w ro re match w_olat u with Some x => x | None => 0 end.
Proof.
  intros L DC P S REG. destruct (loaded_time d L) as [i0 T].
  destruct (coords_dual_spec _ _ _ _ _ _ _ _ _ P DC S REG) as (d' & c & bl & ol & om & EBL & U & R0 & NC & CO & CD & PD & ST & CAP & DN & _).
  destruct (pair_rec _ _ _ _ _ _ P) as [OR _]. destruct (usable_good _ _ _ _ _ U) as (G & R & E3).
  assert (G' : good_vel (after_coords w ol om c)) by now apply good_put.
  destruct (finish1_total (d_o d) (choose_sf own arg) orc (after_coords w ol om c) c R G' eq_refl) as (u & F & R1 & R2).
  exists d', u, bl, c. split; [|split; [|split; [exact PD|split; [exact ST|split; [|split; [|split]]]]]].
  - unfold set_ocb_dual. rewrite T. assert (no_coords [given w] = true) as -> by reflexivity. rewrite CD. cbn [bind].
    assert (no_coords [relat (after_coords w ol om c) (Some bl)] = false) as -> by reflexivity. rewrite OR. cbn [bind].
    rewrite finish1_relat, F. reflexivity.
  - unfold set_ocb. cbn [with_rind recs rind]. rewrite E3. cbn [bind]. cbv zeta. assert (no_coords [given w] = true) as -> by reflexivity.
    change (coords_of (with_rind (d_o d) io) io (given w)) with (coords_of (d_o d) io (given w)). rewrite CO. cbn [bind].
    assert (no_coords [after_coords w ol om c] = false) as -> by reflexivity.
    match goal with |- context [finish1 ?b _ _ _] => change (finish1 b) with (finish1 (d_o d)) end. rewrite F. reflexivity.
  - destruct DN as (BL & M & Lx & C & DN & EB). exists (moved d k io ie), d', BL, M, Lx, C. split; [apply (moved_spec _ _ _ _ _ _ P)|]. auto.
  - apply U.
  - unfold ScalingSpec.radii. now rewrite R1, R2.
  - destruct DN as (BL & M & Lx & C & DN & EB). split; [eauto|]. destruct (finish1_kept _ _ _ _ _ F) as [_ (K1 & K2 & K3)].
    split; [intros X; now destruct (CAP X)|]. cbn in K1, K3. split; [congruence|]. rewrite EBL. now replace (w_olat u) with (Some ol) by congruence.
Qed.
