(** C27-C36, C43, C45, C79, C80: coordinate conversions of a single boundary. *)
From Coq Require Import Reals ZArith List Bool Lia Lra.
From Verif Require Import PyBase RangeModel RangeSpec RangeProofs PropertiesRange CoordModel CoordSpec CoordProofs CoordProofs2.
Import ListNotations.
Open Scope R_scope.

(** A concrete boundary used in the cases: radius 18 degrees, centred 4 degrees
    from the pole towards midnight, corrected by 2 degrees everywhere. *)
Definition rec1 : rec := mkRec 18 4 0 (fun m => fmap (fun _ => 2) m).
Definition bnd1 : bnd := mkBnd 1 74 [rec1] 0.
Definition bnd1s : bnd := mkBnd (-1) (-74) [rec1] 0.

(** ** C27 *)
Theorem C27_boundary_to_reference :
  forall b rc lat mlt c,
    config_ok (hemi b) (blat b) -> selected b rc -> in_hemisphere (hemi b) lat ->
    rfun rc (Some mlt) = Some c -> 0 < rr rc + c ->
    exists olat omlt after,
      normal_coord b (sc (Some lat)) (sc (Some mlt)) =
        Ok (out true [Some olat], out true [Some omlt], out true [Some c], after) /\
      let P := point (colat (hemi b) lat) mlt in
      let d := dist P (centre rc) in
      let h := IZR (hemi b) in
      (* on, inside and outside the boundary; the centre *)
      (d = rr rc + c <-> olat = blat b) /\
      (d < rr rc + c <-> h * blat b < h * olat) /\
      (rr rc + c < d <-> h * olat < h * blat b) /\
      (P = centre rc <-> h * olat = 90) /\
      (* the position relative to the centre is only rescaled *)
      let k := colat (hemi b) (blat b) / (rr rc + c) in
      point (colat (hemi b) olat) omlt =
        ((fst P - fst (centre rc)) * k, (snd P - snd (centre rc)) * k).
Proof.
  intros b rc lat mlt c Hc Hs Hl Hf Hr. destruct (config_abs _ _ Hc) as [C1 [C2 C3]].
  destruct Hc as [Hh Hb].
  destruct (normal_coord_sc b (Some lat) (Some mlt)) as [l [m [c' [E K]]]].
  rewrite (proj2 (current_selected b rc) Hs) in K. rewrite (inside_right _ _ Hh Hl) in K.
  destruct K as [K1 K2]. rewrite Hf in K2. subst c'.
  destruct (normal_pt_spec (hemi b) (blat b) rc lat mlt c Hf ltac:(lra)) as [m0 [E0 [_ P0]]].
  cbv zeta in E0, P0. rewrite E0 in K1. injection K1 as <- <-.
  eexists. eexists. eexists. split; [exact E|]. cbv zeta.
  set (P := point (colat (hemi b) lat) mlt) in *. set (C := centre rc) in *.
  set (d := dist P C) in *. rewrite C1 in *.
  set (q := colat (hemi b) (blat b)) in *.
  assert (KP : 0 < q / (rr rc + c)) by (apply Rdiv_lt_0_compat; lra).
  assert (RK : Rabs (q / (rr rc + c)) = q / (rr rc + c)) by (apply Rabs_pos_eq; lra).
  rewrite RK in *. set (k := q / (rr rc + c)) in *.
  assert (KR : k * (rr rc + c) = q) by (unfold k; field; lra).
  assert (HB : IZR (hemi b) * blat b = 90 - q) by (unfold q, colat; ring).
  assert (HO : IZR (hemi b) * (IZR (hemi b) * (90 - d * k)) = 90 - d * k).
  { destruct Hh as [-> | ->]; lra. }
  assert (D0 : 0 <= d) by (unfold d, dist; apply sqrt_pos).
  destruct (scale_cmp k (rr rc + c) q d KP KR) as [S1 [S2 S3]].
  rewrite HO, HB. split; [|split; [|split; [|split]]].
  - rewrite S1. split; intros X.
    + rewrite X. destruct Hh as [W | W]; rewrite W in *; lra.
    + assert (Y : 90 - d * k = 90 - q) by (rewrite <- HO, X; exact HB). lra.
  - rewrite S2. split; intros; lra.
  - rewrite S3. split; intros; lra.
  - rewrite <- dist_zero. fold d. destruct (scale_cmp k 0 0 d KP ltac:(lra)) as [-> _]. split; intros; lra.
  - rewrite (colat_inv _ _ Hh). symmetry. exact P0.
Qed.

(** The hypotheses are met: the point at 66 degrees, midnight, is on the boundary
    (24 degrees from the pole, 20 from the centre). *)
Example C27_case : exists omlt after,
  normal_coord bnd1 (sc (Some 66)) (sc (Some 0)) =
    Ok (out true [Some 74], out true [Some omlt], out true [Some 2], after).
Proof.
  destruct (C27_boundary_to_reference bnd1 rec1 66 0 2) as [ol [om [a [E [D _]]]]].
  - split; [now left|cbn; lra].
  - split; [cbn; lia|reflexivity].
  - unfold in_hemisphere; cbn; lra.
  - reflexivity.
  - cbn; lra.
  - assert (ol = 74) as ->; [|now exists om, a]. apply D. unfold dist, point, centre, colat. cbn [fst snd hemi bnd1 rec1 rcent phic rr].
    replace (0 * PI / 12) with 0 by lra. replace (0 * PI / 180) with 0 by lra. rewrite cos_0, sin_0.
    replace (((90 - 1 * 66) * 1 - 4 * 1) ^ 2 + ((90 - 1 * 66) * 0 - 4 * 0) ^ 2) with (20 * 20) by ring.
    rewrite sqrt_square; lra.
Qed.

(** ** C28 *)
Theorem C28_normal_then_revert :
  forall b rc lat mlt c olat omlt after,
    config_ok (hemi b) (blat b) -> selected b rc ->
    in_hemisphere (hemi b) lat -> 0 <= colat (hemi b) lat ->
    rfun rc (Some mlt) = Some c -> rr rc + c <> 0 ->
    normal_coord b (sc (Some lat)) (sc (Some mlt)) =
      Ok (out true [Some olat], out true [Some omlt], out true [Some c], after) ->
    in_hemisphere (hemi b) olat ->
    exists mlt', revert_coord b (sc (Some olat)) (sc (Some omlt)) (sc (Some c)) =
        Ok (out true [Some lat], out true [Some mlt']) /\
      0 <= mlt' < 24 /\ (0 < colat (hemi b) lat -> shifted 24 mlt mlt').
Proof.
  intros b rc lat mlt c ol om after Hc Hs Hl H90 Hf Hr E Ho. pose proof (proj1 Hc) as Hh.
  pose proof (proj2 (current_selected b rc) Hs) as Cu.
  destruct (normal_coord_sc b (Some lat) (Some mlt)) as [l [m [c' [E1 K]]]]. rewrite Cu in K.
  rewrite (inside_right _ _ Hh Hl) in K. destruct K as [K1 _]. rewrite E1 in E. injection E as -> -> _ _.
  destruct (round_trip_nr (hemi b) (blat b) rc lat mlt c ol om Hc Hf Hr H90 K1) as [m' [E2 B]].
  exists m'. split; [|exact B].
  destruct (revert_coord_sc b (Some ol) (Some om) (Some c)) as [l2 [m2 [E3 K3]]]. rewrite Cu in K3.
  rewrite (inside_right _ _ Hh Ho) in K3. rewrite E2 in K3. injection K3 as <- <-. exact E3.
Qed.

(** Arrays of any length: every element in the hemisphere comes back. *)
Theorem C28_normal_then_revert_arrays :
  forall b rc lat lt L M C after L' M' i la ml c ol om,
    config_ok (hemi b) (blat b) -> selected b rc ->
    normal_coord b lat lt = Ok (L, M, C, after) ->
    revert_coord b L M C = Ok (L', M') ->
    (i < length (el L))%nat -> (i < length (el L'))%nat ->
    belem (el lat) i = Some la -> belem (el lt) i = Some ml ->
    in_hemisphere (hemi b) la -> 0 < colat (hemi b) la ->
    rfun rc (Some ml) = Some c -> rr rc + c <> 0 ->
    nth_error (el L) i = Some (Some ol) -> nth_error (el M) i = Some (Some om) ->
    in_hemisphere (hemi b) ol ->
    exists ml', nth_error (el L') i = Some (Some la) /\ nth_error (el M') i = Some (Some ml') /\
      0 <= ml' < 24 /\ shifted 24 ml ml'.
Proof.
  intros b rc lat lt L M C after L' M' i la ml c ol om Hc Hs E1 E2 I1 I2 Bl Bm Hl H90 Hf Hr Nl Nm Ho.
  pose proof (proj1 Hc) as Hh. pose proof (proj2 (current_selected b rc) Hs) as Cu.
  pose proof (normal_coord_elem b lat lt L M C after i _ _ E1 Nl Nm) as A. rewrite Cu, Bl, Bm in A.
  rewrite (inside_right _ _ Hh Hl) in A.
  destruct (round_trip_nr (hemi b) (blat b) rc la ml c ol om Hc Hf Hr ltac:(lra) A) as [m' [R [B S]]].
  assert (LM : length (el L') = length (el M')).
  { unfold revert_coord in E2. rewrite Cu in E2. destruct (forallb _ _); [injection E2 as <- <-; reflexivity|].
    destruct (bc2 _ _) as [ps|]; [|discriminate]. cbn [bind] in E2.
    destruct (bc2 ps _) as [qs|]; [|discriminate]. cbn [bind] in E2.
    destruct (mapE _ qs) as [rs|]; [|discriminate]. injection E2 as <- <-. cbn [el out]. now rewrite !map_length. }
  destruct (nth_error (el L') i) as [x|] eqn:Nx; [|apply nth_error_None in Nx; lia].
  destruct (nth_error (el M') i) as [y|] eqn:Ny; [|apply nth_error_None in Ny; lia].
  pose proof (revert_coord_elem b L M C L' M' i x y E2 Nx Ny) as Z. rewrite Cu in Z.
  assert (BE : forall l v, nth_error l i = Some v -> belem l i = v).
  { intros l v N. destruct l as [|u [|w l]]; unfold belem.
    - destruct i; discriminate.
    - destruct i as [|[|]]; [now injection N|discriminate|discriminate].
    - now apply nth_error_nth. }
  assert (FW : forallb (wrong_side (hemi b)) (el L) = false).
  { apply not_true_iff_false. intros F. pose proof (wrong_belem _ _ i F) as W.
    rewrite (BE _ _ Nl), (inside_right _ _ Hh Ho) in W. discriminate. }
  rewrite FW, (BE _ _ Nl), (BE _ _ Nm) in Z.
  assert (CC : belem (el C) i = Some c).
  { rewrite <- Hf, <- Bm.
    unfold normal_coord in E1. rewrite Cu in E1.
    destruct (check_side (hemi b) lat) as [[lats|]|] eqn:CS; cbn [bind] in E1; [| |discriminate].
    - destruct (bc2 lats (el lt)) as [ps|] eqn:Eb; [|discriminate]. cbn [bind] in E1.
      destruct (mapE _ ps) as [rs|]; [|discriminate]. injection E1 as _ _ <- _. cbn [el out].
      apply belem_map. rewrite <- (map_length (rfun rc)). destruct (le_lt_dec (length (el lt)) i) as [G|G];
        rewrite map_length; [|now left]. right.
      destruct (el lt) as [|u [|w z]]; [destruct i; discriminate|reflexivity|]. exfalso.
      unfold belem in Bm. rewrite nth_overflow in Bm by exact G. discriminate.
    - exfalso. unfold check_side in CS. destruct (existsb _ _); [|discriminate].
      destruct (forallb (wrong_side (hemi b)) (el lat)) eqn:F; [|destruct (isint lat); discriminate].
      pose proof (wrong_belem _ _ i F) as W. rewrite Bl, (inside_right _ _ Hh Hl) in W. discriminate. }
  rewrite CC, R in Z. injection Z as <- <-. exists m'.
  split; [reflexivity|]. split; [reflexivity|]. split; [exact B|]. now apply S.
Qed.

Example C28_case :
  config_ok (hemi bnd1s) (blat bnd1s) /\ selected bnd1s rec1 /\
  in_hemisphere (hemi bnd1s) (-80) /\ 0 < colat (hemi bnd1s) (-80) /\
  exists ol om after,
    normal_coord bnd1s (sc (Some (-80))) (sc (Some 30)) =
      Ok (out true [Some ol], out true [Some om], out true [Some 2], after) /\
    in_hemisphere (hemi bnd1s) ol.
Proof.
  assert (A : config_ok (hemi bnd1s) (blat bnd1s)) by (split; [now right|cbn; lra]).
  assert (B : selected bnd1s rec1) by (split; [cbn; lia|reflexivity]).
  assert (C : in_hemisphere (hemi bnd1s) (-80)) by (unfold in_hemisphere; cbn; lra).
  split; [exact A|]. split; [exact B|]. split; [exact C|]. split; [unfold colat; cbn; lra|].
  destruct (C27_boundary_to_reference bnd1s rec1 (-80) 30 2 A B C eq_refl ltac:(cbn; lra)) as
    [ol [om [af [E [_ [D _]]]]]].
  exists ol, om, af. split; [exact E|].
  assert (L : dist (point (colat (hemi bnd1s) (-80)) 30) (centre rec1) < rr rec1 + 2).
  { rewrite (point_shift _ 30 6) by (exists (-1)%Z; lra).
    unfold dist, point, centre, colat. cbn [fst snd hemi bnd1s rec1 rcent phic rr].
    replace (6 * PI / 12) with (PI / 2) by field. replace (0 * PI / 180) with 0 by lra.
    rewrite cos_0, sin_0, sin_PI2, cos_PI2.
    match goal with |- sqrt ?x < _ => replace x with 116 by ring end.
    replace (18 + 2) with (sqrt (20 * 20)) by (rewrite sqrt_square; lra). apply sqrt_lt_1; lra. }
  apply D in L. unfold in_hemisphere. cbn in *. lra.
Qed.

(** ** C29 *)
Theorem C29_revert_then_normal :
  forall b rc olat omlt c lat mlt,
    config_ok (hemi b) (blat b) -> selected b rc ->
    in_hemisphere (hemi b) olat -> 0 <= colat (hemi b) olat ->
    rr rc + c <> 0 ->
    revert_coord b (sc (Some olat)) (sc (Some omlt)) (sc (Some c)) =
      Ok (out true [Some lat], out true [Some mlt]) ->
    in_hemisphere (hemi b) lat -> rfun rc (Some mlt) = Some c ->
    exists omlt' after, normal_coord b (sc (Some lat)) (sc (Some mlt)) =
        Ok (out true [Some olat], out true [Some omlt'], out true [Some c], after) /\
      0 <= omlt' < 24 /\ (0 < colat (hemi b) olat -> shifted 24 omlt omlt').
Proof.
  intros b rc ol om c al am Hc Hs Ho H90 Hr E Hl Hf. pose proof (proj1 Hc) as Hh.
  pose proof (proj2 (current_selected b rc) Hs) as Cu.
  destruct (revert_coord_sc b (Some ol) (Some om) (Some c)) as [l2 [m2 [E3 K3]]]. rewrite Cu in K3.
  rewrite (inside_right _ _ Hh Ho) in K3. rewrite E3 in E. injection E as -> ->.
  destruct (round_trip_rn (hemi b) (blat b) rc ol om c al am Hc Hr H90 K3 Hf) as [m' [E2 B]].
  destruct (normal_coord_sc b (Some al) (Some am)) as [l [m [c' [E1 K]]]]. rewrite Cu in K.
  rewrite (inside_right _ _ Hh Hl) in K. destruct K as [K1 K2]. rewrite E2 in K1. injection K1 as <- <-.
  rewrite Hf in K2. subst c'. exists m'. eexists. split; [exact E1|exact B].
Qed.

Example C29_case : exists lat mlt,
  revert_coord bnd1 (sc (Some 82)) (sc (Some 0)) (sc (Some 2)) = Ok (out true [Some lat], out true [Some mlt]) /\
  in_hemisphere (hemi bnd1) lat /\ rfun rec1 (Some mlt) = Some 2 /\ config_ok (hemi bnd1) (blat bnd1) /\
  selected bnd1 rec1.
Proof.
  destruct (revert_coord_sc bnd1 (Some 82) (Some 0) (Some 2)) as [l [m [E K]]].
  change (current bnd1) with (Some rec1) in K. cbv beta iota in K.
  rewrite (inside_right _ _ (or_introl eq_refl)) in K by (unfold in_hemisphere; cbn; lra).
  destruct (revert_pt_spec (hemi bnd1) (blat bnd1) rec1 82 0 2) as [m0 [E0 _]]; [unfold colat; cbn; lra|].
  cbv zeta in E0. rewrite E0 in K. injection K as <- <-. eexists. eexists. split; [exact E|].
  split; [|split; [reflexivity|split; [split; [now left|cbn; lra]|split; [cbn; lia|reflexivity]]]].
  unfold in_hemisphere, point, centre, colat. cbn [fst snd hemi bnd1 rec1 rcent phic rr blat].
  replace (0 * PI / 12) with 0 by lra. replace (0 * PI / 180) with 0 by lra. rewrite cos_0, sin_0.
  match goal with |- context [sqrt ?x] => replace x with (14 * 14) by field end.
  rewrite sqrt_square; lra.
Qed.

(** ** C30 *)
Theorem C30_normal_ranges :
  forall b lat lt L M C after,
    hemi b = 1%Z \/ hemi b = (-1)%Z ->
    normal_coord b lat lt = Ok (L, M, C, after) ->
    (forall x, In (Some x) (el L) -> IZR (hemi b) * x <= 90) /\
    (forall m, In (Some m) (el M) -> 0 <= m < 24).
Proof.
  intros b lat lt L M C after Hh E. pose proof (normal_coord_len _ _ _ _ _ _ _ E) as Ln.
  assert (G : forall i l m, nth_error (el L) i = Some l -> nth_error (el M) i = Some m ->
            (forall x, l = Some x -> IZR (hemi b) * x <= 90) /\ (forall x, m = Some x -> 0 <= x < 24)).
  { intros i l m H1 H2. pose proof (normal_coord_elem b lat lt L M C after i l m E H1 H2) as K.
    destruct (current b) as [rc|]; [|destruct K; subst; split; discriminate].
    destruct (wrong_side _ _); [destruct K; subst; split; discriminate|].
    destruct (normal_pt_total (hemi b) (blat b) rc (belem (el lat) i) (belem (el lt) i))
      as [u [v [Z [Z1 [Z2 _]]]]]. rewrite Z in K. injection K as <- <-. split; [now apply Z1|exact Z2]. }
  split; intros x I; apply In_nth_error in I; destruct I as [i I].
  - destruct (nth_error (el M) i) as [m|] eqn:N; [now apply (G i _ m I N)|].
    apply nth_error_None in N. assert (i < length (el L))%nat by (apply nth_error_Some; intros Q; discriminate (eq_trans (eq_sym I) Q)). lia.
  - destruct (nth_error (el L) i) as [l|] eqn:N; [now apply (G i l _ N I)|].
    apply nth_error_None in N. assert (i < length (el M))%nat by (apply nth_error_Some; intros Q; discriminate (eq_trans (eq_sym I) Q)). lia.
Qed.

Theorem C30_revert_ranges :
  forall b olat omlt rcorr L M,
    hemi b = 1%Z \/ hemi b = (-1)%Z ->
    revert_coord b olat omlt rcorr = Ok (L, M) ->
    (forall x, In (Some x) (el L) -> IZR (hemi b) * x <= 90) /\
    (forall m, In (Some m) (el M) -> 0 <= m < 24).
Proof.
  intros b olat omlt rcorr L M Hh E.
  assert (Ln : length (el L) = length (el M)).
  { unfold revert_coord in E. destruct (current b); [|injection E as <- <-; reflexivity].
    destruct (forallb _ _); [injection E as <- <-; reflexivity|].
    destruct (bc2 _ _) as [ps|]; [|discriminate]. cbn [bind] in E.
    destruct (bc2 ps _) as [qs|]; [|discriminate]. cbn [bind] in E.
    destruct (mapE _ qs) as [rs|]; [|discriminate]. injection E as <- <-. cbn [el out]. now rewrite !map_length. }
  assert (G : forall i l m, nth_error (el L) i = Some l -> nth_error (el M) i = Some m ->
            (forall x, l = Some x -> IZR (hemi b) * x <= 90) /\ (forall x, m = Some x -> 0 <= x < 24)).
  { intros i l m H1 H2. pose proof (revert_coord_elem b olat omlt rcorr L M i l m E H1 H2) as K.
    destruct (current b) as [rc|]; [|destruct K; subst; split; discriminate].
    destruct (forallb _ _); [destruct K; subst; split; discriminate|].
    destruct (revert_pt_total (hemi b) (blat b) rc (belem (el olat) i) (belem (el omlt) i) (belem (el rcorr) i))
      as [u [v [Z [Z1 [Z2 _]]]]]. rewrite Z in K. injection K as <- <-. split; [now apply Z1|exact Z2]. }
  split; intros x I; apply In_nth_error in I; destruct I as [i I].
  - destruct (nth_error (el M) i) as [m|] eqn:N; [now apply (G i _ m I N)|].
    apply nth_error_None in N. assert (i < length (el L))%nat by (apply nth_error_Some; intros Q; discriminate (eq_trans (eq_sym I) Q)). lia.
  - destruct (nth_error (el L) i) as [l|] eqn:N; [now apply (G i l _ N I)|].
    apply nth_error_None in N. assert (i < length (el M))%nat by (apply nth_error_Some; intros Q; discriminate (eq_trans (eq_sym I) Q)). lia.
Qed.

Example C30_case : forall L M C after,
  normal_coord bnd1 (mkArr false false true [Some 80; Some (-3); None]) (sc (Some (-100))) = Ok (L, M, C, after) ->
  (length (el L) = 3)%nat /\ forall m, In (Some m) (el M) -> 0 <= m < 24.
Proof.
  intros L M C after E. split; [|exact (proj2 (C30_normal_ranges bnd1 _ _ _ _ _ _ (or_introl eq_refl) E))].
  unfold normal_coord, check_side in E. change (current bnd1) with (Some rec1) in E.
  cbn [el existsb forallb hemi bnd1 isint] in E.
  rewrite (inside_right 1 80 (or_introl eq_refl)) in E by (unfold in_hemisphere; lra).
  rewrite (proj2 (wrong_side_outside 1 (Some (-3)) (or_introl eq_refl))) in E by (cbn; unfold in_hemisphere; lra).
  cbn [wrong_side orb andb bind map bc2 sc el] in E.
  repeat match type of E with context [mapE ?f [?a; ?b; ?c]] =>
    destruct (mapE_total f [a; b; c]) as [rs [X F]];
      [intros p; destruct (normal_pt_total 1 (blat bnd1) rec1 (fst p) (snd p)) as [u [v [Z _]]]; eauto|];
    rewrite X in E end.
  cbn [bind] in E. injection E as <- _ _ _. cbn [el out]. rewrite map_length. apply f2_length in F. now rewrite <- F.
Qed.

(** ** C31 *)
Definition all_nans (a : arr) : Prop := Forall (fun v => v = None) (el a).

Lemma all_nan_nans l : all_nans (all_nan l) /\ length (el (all_nan l)) = max_len l.
Proof.
  split; [|apply repeat_length]. unfold all_nans, all_nan. cbn [el out]. apply Forall_forall.
  intros x H. now apply repeat_spec in H.
Qed.

(** No record selected, or no position in the hemisphere: NaN for every element. *)
Theorem C31_undefined_is_nan_partial :
  (forall b lat lt,
     hemi b = 1%Z \/ hemi b = (-1)%Z ->
     wf_arr lat -> wf_arr lt ->
     none_selected b \/ Forall (outside (hemi b)) (el lat) ->
     exists n, normal_coord b lat lt = Ok (n, n, n, el lat) /\ all_nans n /\
       length (el n) = Nat.max (length (el lat)) (length (el lt))) /\
  (forall b olat omlt rcorr,
     hemi b = 1%Z \/ hemi b = (-1)%Z ->
     wf_arr olat -> wf_arr omlt -> wf_arr rcorr ->
     none_selected b \/ Forall (outside (hemi b)) (el olat) ->
     exists n, revert_coord b olat omlt rcorr = Ok (n, n) /\ all_nans n /\
       length (el n) = Nat.max (length (el olat)) (Nat.max (length (el omlt)) (length (el rcorr)))).
Proof.
  assert (F : forall b l, hemi b = 1%Z \/ hemi b = (-1)%Z -> Forall (outside (hemi b)) l ->
            forallb (wrong_side (hemi b)) l = true).
  { intros b l Hh H. apply forallb_forall. intros x Hx. rewrite Forall_forall in H.
    apply wrong_side_outside; [exact Hh|now apply H]. }
  assert (WL : forall a, wf_arr a -> (length (el a) > 0)%nat).
  { intros a [N _]. destruct (el a); [contradiction|cbn; lia]. }
  split.
  - intros b lat lt Hh W1 W2 H. exists (all_nan [lat; lt]). destruct (all_nan_nans [lat; lt]) as [A B].
    split; [|split; [exact A|]].
    2:{ rewrite B. pose proof (WL _ W1). pose proof (WL _ W2). destruct W1 as [_ W1], W2 as [_ W2].
        unfold max_len. cbn [filter]. destruct (is0d lat) eqn:?, (is0d lt) eqn:?; cbn; try rewrite W1 by (assumption || reflexivity);
          try rewrite W2 by (assumption || reflexivity); lia. }
    unfold normal_coord. destruct (current b) as [rc|] eqn:C; [|reflexivity].
    destruct H as [H|H]; [apply current_none in H; congruence|]. destruct W1 as [N _].
    unfold check_side. rewrite (F b _ Hh H).
    assert (X : existsb (wrong_side (hemi b)) (el lat) = true).
    { destruct (el lat) as [|x l]; [contradiction|]. pose proof (F b _ Hh H) as Y. cbn in Y.
      apply andb_true_iff in Y. cbn. now rewrite (proj1 Y). }
    now rewrite X.
  - intros b olat omlt rcorr Hh W1 W2 W3 H. exists (all_nan [olat; omlt; rcorr]).
    destruct (all_nan_nans [olat; omlt; rcorr]) as [A B].
    split; [|split; [exact A|]].
    2:{ rewrite B. pose proof (WL _ W1). pose proof (WL _ W2). pose proof (WL _ W3).
        destruct W1 as [_ W1], W2 as [_ W2], W3 as [_ W3].
        unfold max_len. cbn [filter]. destruct (is0d olat) eqn:?, (is0d omlt) eqn:?, (is0d rcorr) eqn:?; cbn;
          try rewrite W1 by (assumption || reflexivity); try rewrite W2 by (assumption || reflexivity); try rewrite W3 by (assumption || reflexivity); lia. }
    unfold revert_coord. destruct (current b) as [rc|] eqn:C; [|reflexivity].
    destruct H as [H|H]; [apply current_none in H; congruence|]. now rewrite (F b _ Hh H).
Qed.

(** Mixed input: exactly the wrong positions get NaN, when the correction is
    defined and the corrected radius does not vanish. *)
Theorem C31_mixed_input_partial :
  forall b rc lat lt L M C after i l m ml,
    hemi b = 1%Z \/ hemi b = (-1)%Z -> selected b rc ->
    normal_coord b lat lt = Ok (L, M, C, after) ->
    nth_error (el L) i = Some l -> nth_error (el M) i = Some m ->
    belem (el lt) i = Some ml -> (exists c, rfun rc (Some ml) = Some c /\ rr rc + c <> 0) ->
    (l = None <-> outside (hemi b) (belem (el lat) i)) /\
    (m = None <-> outside (hemi b) (belem (el lat) i)).
Proof.
  intros b rc lat lt L M C after i l m ml Hh Hs E N1 N2 Hm [c [Hf Hr]].
  pose proof (normal_coord_elem b lat lt L M C after i l m E N1 N2) as K.
  rewrite (proj2 (current_selected b rc) Hs) in K.
  destruct (wrong_side (hemi b) (belem (el lat) i)) eqn:W.
  - apply (wrong_side_outside _ _ Hh) in W. destruct K. tauto.
  - assert (W' : ~ outside (hemi b) (belem (el lat) i)).
    { intros O. apply (wrong_side_outside _ _ Hh) in O. congruence. }
    destruct (normal_pt_total (hemi b) (blat b) rc (belem (el lat) i) (belem (el lt) i))
      as [u [v [Z [_ [_ [Z1 Z2]]]]]]. rewrite Z in K. injection K as <- <-.
    rewrite Hm, Hf in Z2.
    assert (U : u <> None).
    { intros ->. destruct (proj1 Z2 eq_refl) as [X|[X|X]]; [|discriminate|contradiction].
      rewrite X in W'. cbn in W'. tauto. }
    tauto.
Qed.

(** Integer arrays with both hemispheres cannot hold NaN: the call fails. *)
Theorem C31_mixed_input_refuted :
  exists b rc lat lt, config_ok (hemi b) (blat b) /\ selected b rc /\ isint lat = true /\
    normal_coord b lat lt = Err ValueError.
Proof.
  exists bnd1, rec1, (mkArr false true true [Some 80; Some (-80)]), (sc (Some 0)).
  split; [split; [now left|cbn; lra]|]. split; [split; [cbn; lia|reflexivity]|]. split; [reflexivity|].
  unfold normal_coord, check_side. change (current bnd1) with (Some rec1). cbn [el existsb forallb hemi bnd1 isint].
  rewrite (inside_right 1 80 (or_introl eq_refl)) by (unfold in_hemisphere; lra).
  rewrite (proj2 (wrong_side_outside 1 (Some (-80)) (or_introl eq_refl))) by (cbn; unfold in_hemisphere; lra).
  reflexivity.
Qed.

(** ... which is the case for every such array. *)
Theorem C31_integer_arrays_fail :
  forall b rc lat lt, hemi b = 1%Z \/ hemi b = (-1)%Z -> selected b rc -> isint lat = true ->
    Exists (outside (hemi b)) (el lat) -> ~ Forall (outside (hemi b)) (el lat) ->
    normal_coord b lat lt = Err ValueError.
Proof.
  intros b rc lat lt Hh Hs Hi Ex Fa. unfold normal_coord. rewrite (proj2 (current_selected b rc) Hs).
  unfold check_side.
  assert (A : existsb (wrong_side (hemi b)) (el lat) = true).
  { apply existsb_exists. apply Exists_exists in Ex. destruct Ex as [x [I O]]. exists x. split; [exact I|].
    now apply wrong_side_outside. }
  assert (B : forallb (wrong_side (hemi b)) (el lat) = false).
  { apply not_true_iff_false. intros F. apply Fa. apply Forall_forall. intros x I.
    rewrite forallb_forall in F. apply (wrong_side_outside _ _ Hh). now apply F. }
  rewrite A, B, Hi. reflexivity.
Qed.

Example C31_case : none_selected (mkBnd 1 74 [rec1] 1) /\ none_selected (mkBnd 1 74 [rec1] (-1)) /\
  outside 1 (Some 0) /\ outside 1 (Some (-80)) /\ ~ outside (-1) (Some (-80)).
Proof. unfold none_selected, outside, in_hemisphere; cbn. repeat split; try lia; lra. Qed.

(** ** C32 *)

(** normal_coord: every element is what the scalar call gives, for coordinates;
    the correction of an element also, if no element is outside the hemisphere. *)
Theorem C32_elementwise_partial :
  forall b lat lt L M C after i l m,
    normal_coord b lat lt = Ok (L, M, C, after) ->
    nth_error (el L) i = Some l -> nth_error (el M) i = Some m ->
    exists c after', normal_coord b (sc (belem (el lat) i)) (sc (belem (el lt) i)) =
      Ok (out true [l], out true [m], out true [c], after').
Proof.
  intros b lat lt L M C after i l m E N1 N2.
  pose proof (normal_coord_elem b lat lt L M C after i l m E N1 N2) as K.
  destruct (normal_coord_sc b (belem (el lat) i) (belem (el lt) i)) as [l' [m' [c [E' K']]]].
  exists c. eexists. rewrite E'. repeat f_equal; destruct (current b) as [rc|];
    try (destruct K; destruct K' as [? [? ?]]; congruence);
    destruct (wrong_side _ _); try (destruct K; destruct K' as [? [? ?]]; congruence);
    destruct K' as [K' _]; congruence.
Qed.

(** revert_coord: when no element is outside the hemisphere. *)
Theorem C32_revert_elementwise_partial :
  forall b olat omlt rcorr L M i l m,
    hemi b = 1%Z \/ hemi b = (-1)%Z ->
    Forall (fun v => ~ outside (hemi b) v) (el olat) -> (i < length (el olat) \/ length (el olat) = 1)%nat ->
    revert_coord b olat omlt rcorr = Ok (L, M) ->
    nth_error (el L) i = Some l -> nth_error (el M) i = Some m ->
    revert_coord b (sc (belem (el olat) i)) (sc (belem (el omlt) i)) (sc (belem (el rcorr) i)) =
      Ok (out true [l], out true [m]).
Proof.
  intros b olat omlt rcorr L M i l m Hh F Hi E N1 N2.
  pose proof (revert_coord_elem b olat omlt rcorr L M i l m E N1 N2) as K.
  destruct (revert_coord_sc b (belem (el olat) i) (belem (el omlt) i) (belem (el rcorr) i))
    as [l' [m' [E' K']]].
  assert (I : In (belem (el olat) i) (el olat)).
  { destruct (el olat) as [|x [|y z]]; [cbn in Hi; lia|now left|]. unfold belem. apply nth_In. cbn in *. lia. }
  assert (W : wrong_side (hemi b) (belem (el olat) i) = false).
  { apply not_true_iff_false. rewrite (wrong_side_outside _ _ Hh). rewrite Forall_forall in F. now apply F. }
  assert (W2 : forallb (wrong_side (hemi b)) (el olat) = false).
  { apply not_true_iff_false. intros X. rewrite forallb_forall in X. rewrite (X _ I) in W. discriminate. }
  rewrite W in K'. rewrite W2 in K. rewrite E'.
  destruct (current b) as [rc|]; [congruence|]. destruct K, K'. congruence.
Qed.

(** In mixed arrays revert_coord converts what the scalar call rejects, and the
    correction returned by normal_coord is that of the position ignoring its
    hemisphere. *)
Theorem C32_elementwise_refuted :
  (exists b olat omlt rcorr L M i l, config_ok (hemi b) (blat b) /\
     revert_coord b olat omlt rcorr = Ok (L, M) /\ nth_error (el L) i = Some (Some l) /\
     revert_coord b (sc (belem (el olat) i)) (sc (belem (el omlt) i)) (sc (belem (el rcorr) i)) =
       Ok (out true [None], out true [None])) /\
  (exists b lat lt L M C after i c, config_ok (hemi b) (blat b) /\
     normal_coord b lat lt = Ok (L, M, C, after) /\ nth_error (el C) i = Some (Some c) /\
     exists after', normal_coord b (sc (belem (el lat) i)) (sc (belem (el lt) i)) =
       Ok (out true [None], out true [None], out true [None], after')).
Proof.
  assert (W80 : wrong_side 1 (Some 80) = false) by (apply inside_right; [now left|unfold in_hemisphere; lra]).
  assert (W3 : wrong_side 1 (Some (-3)) = true).
  { apply wrong_side_outside; [now left|]. cbn. unfold in_hemisphere. lra. }
  split.
  - destruct (revert_pt_spec 1 74 rec1 80 0 2) as [m1 [E1 _]]; [unfold colat; lra|].
    destruct (revert_pt_spec 1 74 rec1 (-3) 0 2) as [m2 [E2 _]]; [unfold colat; lra|].
    cbv zeta in E1, E2.
    exists bnd1, (mkArr false false true [Some 80; Some (-3)]), (sc (Some 0)), (sc (Some 2)).
    unfold revert_coord at 1. change (current bnd1) with (Some rec1).
    cbn [el forallb hemi bnd1 blat]. rewrite W80. cbn [andb bc2 map sc el bind mapE fst snd].
    rewrite E1. cbn [bind]. rewrite E2. cbn [bind].
    eexists. eexists. exists 1%nat. eexists. split; [split; [now left|cbn; lra]|].
    split; [reflexivity|]. split; [reflexivity|].
    destruct (revert_coord_sc bnd1 (Some (-3)) (Some 0) (Some 2)) as [l [m [E K]]].
    change (current bnd1) with (Some rec1) in K. cbn [hemi bnd1] in K. rewrite W3 in K. destruct K as [-> ->]. exact E.
  - destruct (normal_pt_total 1 74 rec1 (Some 80) (Some 0)) as [l1 [m1 [E1 _]]].
    destruct (normal_pt_total 1 74 rec1 None (Some 6)) as [l2 [m2 [E2 _]]].
    exists bnd1, (mkArr false false true [Some 80; Some (-3)]), (mkArr false false true [Some 0; Some 6]).
    unfold normal_coord at 1, check_side. change (current bnd1) with (Some rec1).
    cbn [el existsb forallb hemi bnd1 blat isint]. rewrite W80, W3. cbn [orb andb bind map].
    rewrite W80, W3. cbn [bc2 length Nat.eqb combine bind mapE fst snd]. rewrite E1. cbn [bind]. rewrite E2. cbn [bind].
    eexists. eexists. eexists. eexists. exists 1%nat. exists 2. split; [split; [now left|cbn; lra]|].
    split; [reflexivity|]. split; [reflexivity|].
    destruct (normal_coord_sc bnd1 (Some (-3)) (Some 6)) as [l [m [c [E K]]]].
    change (current bnd1) with (Some rec1) in K. cbn [hemi bnd1] in K. rewrite W3 in K. destruct K as [-> [-> ->]].
    eexists. exact E.
Qed.

(** ** C33 *)
Theorem C33_arguments_kept_partial :
  (forall b lat lt L M C after, normal_coord b lat lt = Ok (L, M, C, after) ->
     hemi b = 1%Z \/ hemi b = (-1)%Z ->
     isnd lat = false \/ Forall (outside (hemi b)) (el lat) \/ Forall (fun v => ~ outside (hemi b) v) (el lat) ->
     after = el lat) /\
  (forall b stored mlt ri ow c e after, get_aacgm_boundary_lat b stored mlt ri ow = (c, e, after) ->
     isnd mlt = false \/ Forall (fun v => forall x, v = Some x -> 0 <= x < 24) (el mlt) ->
     after = el mlt).
Proof.
  split.
  - intros b lat lt L M C after E Hh H. unfold normal_coord in E.
    destruct (current b) as [rc|]; [|injection E as _ _ _ <-; reflexivity].
    unfold check_side in E.
    destruct (existsb (wrong_side (hemi b)) (el lat)) eqn:X.
    + destruct (forallb (wrong_side (hemi b)) (el lat)) eqn:Y; [injection E as _ _ _ <-; reflexivity|].
      destruct (isint lat); [discriminate|]. cbn [bind] in E.
      destruct (bc2 _ _) as [ps|]; [|discriminate]. cbn [bind] in E.
      destruct (mapE _ ps) as [rs|]; [|discriminate]. cbn [bind] in E. injection E as _ _ _ <-.
      destruct H as [->|[H|H]]; [reflexivity| |]; exfalso.
      * apply not_true_iff_false in Y. apply Y. apply forallb_forall. intros x I.
        apply (wrong_side_outside _ _ Hh). rewrite Forall_forall in H. now apply H.
      * apply existsb_exists in X. destruct X as [x [I W]]. rewrite Forall_forall in H. apply (H x I).
        now apply (wrong_side_outside _ _ Hh).
    + cbn [bind] in E. destruct (bc2 _ _) as [ps|]; [|discriminate]. cbn [bind] in E.
      destruct (mapE _ ps) as [rs|]; [|discriminate]. cbn [bind] in E. injection E as _ _ _ <-.
      now destruct (isnd lat).
  - intros b stored mlt ri ow c e after E H. unfold get_aacgm_boundary_lat in E.
    destruct (isint mlt); [now injection E|]. injection E as _ <-.
    destruct H as [->|H]; [reflexivity|]. destruct (isnd mlt); [|reflexivity].
    rewrite <- (map_id (el mlt)) at 2. apply map_ext_in. intros [x|] I; [|reflexivity].
    rewrite Forall_forall in H. pose proof (H _ I x eq_refl). unfold wrap_once.
    destruct (Rlt_dec x 0); [lra|]. destruct (Rle_dec 24 x); [lra|reflexivity].
Qed.

Theorem C33_arguments_kept_refuted :
  (exists b lat lt L M C after, config_ok (hemi b) (blat b) /\
     normal_coord b lat lt = Ok (L, M, C, after) /\ after <> el lat) /\
  (exists b mlt c after, get_aacgm_boundary_lat b None mlt None false = (c, None, after) /\ after <> el mlt).
Proof.
  split.
  - assert (W80 : wrong_side 1 (Some 80) = false) by (apply inside_right; [now left|unfold in_hemisphere; lra]).
    assert (W3 : wrong_side 1 (Some (-3)) = true).
    { apply wrong_side_outside; [now left|]. cbn. unfold in_hemisphere. lra. }
    destruct (normal_pt_total 1 74 rec1 (Some 80) (Some 0)) as [l1 [m1 [E1 _]]].
    destruct (normal_pt_total 1 74 rec1 None (Some 0)) as [l2 [m2 [E2 _]]].
    exists bnd1, (mkArr false false true [Some 80; Some (-3)]), (sc (Some 0)).
    unfold normal_coord at 1, check_side. change (current bnd1) with (Some rec1).
    cbn [el existsb forallb hemi bnd1 blat isint]. rewrite W80, W3. cbn [orb andb bind map].
    rewrite W80, W3. cbn [bc2 map sc el bind mapE fst snd]. rewrite E1. cbn [bind]. rewrite E2. cbn [bind].
    eexists. eexists. eexists. eexists. split; [split; [now left|cbn; lra]|]. split; [reflexivity|].
    cbn [isnd]. intros X. injection X as X. discriminate.
  - exists (mkBnd 1 74 [] (-1)), (mkArr false false true [Some (-1)]), [], [Some 23].
    unfold get_aacgm_boundary_lat. cbn [isint isnd el map wrap_once recs length seq boundary_loop repeat].
    destruct (Rlt_dec (-1) 0); [|lra]. destruct (Rle_dec 24 (-1 + 24)); [lra|].
    replace (-1 + 24) with 23 by lra. split; [reflexivity|]. intros X. injection X as X. lra.
Qed.

(** ** C35 *)

(** A call whose record indices all exist: exactly the requested records that
    were empty, or all requested ones when overwriting, get a new boundary; every
    other stored boundary is as before. *)
Theorem C35_stored_boundaries :
  forall b stored mlt ri ow,
    isint mlt = false -> length stored = length (recs b) ->
    (forall i, In i ri -> exists k, denotes (length (recs b)) i k) ->
    exists c' after, get_aacgm_boundary_lat b (Some stored) mlt (Some ri) ow = (c', None, after) /\
      length c' = length (recs b) /\
      forall k rc old, nth_error (recs b) k = Some rc -> nth_error stored k = Some old ->
        let requested := exists i, In i ri /\ denotes (length (recs b)) i k in
        (~ requested -> nth_error c' k = Some old) /\
        (forall o, old = Some o -> ow = false -> nth_error c' k = Some old) /\
        (requested -> old = None \/ ow = true ->
           exists lats mlts, nth_error c' k = Some (Some (lats, mlts)) /\
             length mlts = length (el mlt) /\
             Forall2 (fun m l => boundary_pt (hemi b) rc m = Ok l) mlts lats).
Proof.
  intros b stored mlt ri ow Hi Ls V. unfold get_aacgm_boundary_lat. rewrite Hi.
  destruct (boundary_loop_spec (hemi b) (recs b) ow (map wrap_once (el mlt)) ri stored Ls V) as [c' [E [L' P]]].
  rewrite E. exists c'. eexists. split; [reflexivity|]. split; [exact L'|].
  intros k rc old N1 N2. pose proof (P k rc old N1 N2) as Q.
  assert (K : (k < length (recs b))%nat) by (apply nth_error_Some; congruence).
  set (new := Some (lats_of (hemi b) rc (map wrap_once (el mlt)), map wrap_once (el mlt))) in *.
  set (w := match old with Some _ => if ow then new else old | None => new end).
  assert (R : (exists i, In i ri /\ denotes (length (recs b)) i k) <->
              In (Z.of_nat k) ri \/ In (Z.of_nat k - Z.of_nat (length (recs b)))%Z ri).
  { split.
    - intros [i [I [_ [-> | ->]]]]; tauto.
    - intros [I|I]; eexists; (split; [exact I|]); split; try exact K; tauto. }
  assert (Q' : nth_error c' k = Some
     (if in_dec Z.eq_dec (Z.of_nat k) ri then w
      else if in_dec Z.eq_dec (Z.of_nat k - Z.of_nat (length (recs b)))%Z ri then w else old)).
  { rewrite Q. unfold w. destruct old; destruct ow; reflexivity. }
  clear Q. cbv zeta. rewrite R. split; [|split].
  - intros NR. rewrite Q'. destruct (in_dec _ _ ri); [tauto|]. destruct (in_dec _ _ ri); [tauto|reflexivity].
  - intros o -> ->. rewrite Q'. unfold w. repeat destruct (in_dec _ _ ri); reflexivity.
  - intros RQ O. exists (lats_of (hemi b) rc (map wrap_once (el mlt))), (map wrap_once (el mlt)).
    split; [|split].
    + rewrite Q'. assert (w = new) as -> by (unfold w; destruct O as [->| ->]; [reflexivity|now destruct old]).
      destruct (in_dec _ _ ri); [reflexivity|]. destruct (in_dec _ _ ri); [reflexivity|tauto].
    + apply map_length.
    + destruct (mapE_total (boundary_pt (hemi b) rc) (map wrap_once (el mlt))) as [l [El F]];
        [intros a; apply boundary_pt_total|]. rewrite lats_of_eq in El. injection El as ->. exact F.
Qed.

(** Whatever the record indices (a missing one stops the call with IndexError) and
    over any sequence of calls without [overwrite]: a stored boundary stays. *)
Lemma boundary_loop_keeps h rcs ow mlts ri c c' e : length c = length rcs ->
  boundary_loop h rcs ow mlts ri c = (c', e) ->
  length c' = length c /\
  (ow = false -> forall k o, nth_error c k = Some (Some o) -> nth_error c' k = Some (Some o)) /\
  (forall k, (forall i, In i ri -> ~ denotes (length rcs) i k) -> nth_error c' k = nth_error c k).
Proof.
  revert c. induction ri as [|i ri IH]; intros c Lc E; cbn [boundary_loop] in E.
  - injection E as <- <-. repeat split; auto.
  - destruct (py_get c i) as [old|] eqn:G1; [|injection E as <- <-; repeat split; auto].
    destruct (py_get rcs i) as [rc|] eqn:G2; [|injection E as <- <-; repeat split; auto].
    apply py_get_denotes in G1. destruct G1 as [k [D N]].
    assert (STEP : forall v, (ow = false -> old = None) ->
              boundary_loop h rcs ow mlts ri (set_at c i v) = (c', e) ->
              length c' = length c /\
              (ow = false -> forall k o, nth_error c k = Some (Some o) -> nth_error c' k = Some (Some o)) /\
              (forall k, (forall j, In j (i :: ri) -> ~ denotes (length rcs) j k) -> nth_error c' k = nth_error c k)).
    { intros v Hv E1. destruct (set_at_nth c i k v D) as [S1 S2].
      destruct (IH (set_at c i v) ltac:(lia) E1) as [A [B C]]. split; [lia|]. split.
      - intros W k' o H. apply B; [exact W|]. rewrite S2. destruct (Nat.eq_dec k' k) as [->|]; [|exact H].
        rewrite (Hv W) in N. congruence.
      - intros k' H. rewrite C by (intros j I; apply H; now right). rewrite S2.
        destruct (Nat.eq_dec k' k) as [->|]; [|reflexivity]. exfalso. apply (H i); [now left|].
        rewrite <- Lc. exact D. }
    destruct old as [o|]; destruct ow.
    + rewrite lats_of_eq in E. apply (STEP _ ltac:(discriminate) E).
    + destruct (IH c Lc E) as [A [B C]]. split; [exact A|]. split; [exact B|]. intros k' H. apply C.
      intros j I. apply H. now right.
    + rewrite lats_of_eq in E. apply (STEP _ ltac:(discriminate) E).
    + rewrite lats_of_eq in E. apply (STEP _ ltac:(reflexivity) E).
Qed.

Fixpoint calls (b : bnd) (cs : list (arr * option (list Z))) (c : cache) : cache :=
  match cs with
  | [] => c
  | (mlt, ri) :: t => calls b t (fst (fst (get_aacgm_boundary_lat b (Some c) mlt ri false)))
  end.

Theorem C35_kept_over_any_history :
  forall b cs c k o, length c = length (recs b) ->
    nth_error c k = Some (Some o) -> nth_error (calls b cs c) k = Some (Some o).
Proof.
  intros b cs. induction cs as [|[mlt ri] cs IH]; intros c k o L N; [exact N|].
  cbn [calls]. unfold get_aacgm_boundary_lat. destruct (isint mlt); [now apply IH|].
  destruct (boundary_loop (hemi b) (recs b) false (map wrap_once (el mlt))
    (match ri with Some l => l | None => map Z.of_nat (seq 0 (length (recs b))) end) c) as [c' e] eqn:E.
  cbn [fst]. destruct (boundary_loop_keeps _ _ _ _ _ _ _ _ L E) as [A [B _]].
  apply IH; [lia|]. now apply B.
Qed.

(** A record that is not named is not touched, even when the call fails. *)
Theorem C35_only_requested :
  forall b stored mlt ri ow c' e after k, length stored = length (recs b) ->
    get_aacgm_boundary_lat b (Some stored) mlt (Some ri) ow = (c', e, after) ->
    (forall i, In i ri -> ~ denotes (length (recs b)) i k) -> nth_error c' k = nth_error stored k.
Proof.
  intros b stored mlt ri ow c' e after k L E H. unfold get_aacgm_boundary_lat in E.
  destruct (isint mlt); [injection E as <- _ _; reflexivity|].
  destruct (boundary_loop (hemi b) (recs b) ow (map wrap_once (el mlt)) ri stored) as [c1 e1] eqn:E1.
  injection E as <- _ _. now apply (boundary_loop_keeps _ _ _ _ _ _ _ _ L E1).
Qed.

Example C35_case :
  let b := mkBnd 1 74 [rec1; rec1] 0 in
  let old := ([Some 70], [Some 3]) in
  denotes 2 (-1) 1 /\ denotes 2 0 0 /\
  exists c' after new, get_aacgm_boundary_lat b (Some [Some old; None]) (mkArr false false true [Some 5]) (Some [-1; 0]%Z) false
    = (c', None, after) /\ c' = [Some old; Some new].
Proof.
  cbv zeta. split; [unfold denotes; lia|]. split; [unfold denotes; lia|].
  unfold get_aacgm_boundary_lat. cbn [isint el map hemi recs boundary_loop py_get length Z.of_nat].
  change (py_get [Some ([Some 70], [Some 3]); None] (-1)) with (Some (@None (list fl * list fl))).
  change (py_get [rec1; rec1] (-1)) with (Some rec1). cbv iota. rewrite lats_of_eq.
  eexists. eexists. eexists. split; reflexivity.
Qed.

(** ** C34 *)

(** What is stored for a record after it was computed: at every stored MLT the
    latitude is on the boundary and normalises to the reference latitude; it is NaN
    exactly when the half-line of that MLT does not meet the boundary. *)
Theorem C34_on_boundary :
  forall b stored mlt ri ow c' after k rc,
    config_ok (hemi b) (blat b) -> isint mlt = false -> length stored = length (recs b) ->
    (forall i, In i ri -> exists j, denotes (length (recs b)) i j) ->
    get_aacgm_boundary_lat b (Some stored) mlt (Some ri) ow = (c', None, after) ->
    nth_error (recs b) k = Some rc -> (exists i, In i ri /\ denotes (length (recs b)) i k) ->
    nth_error stored k = Some None \/ ow = true ->
    exists lats mlts, nth_error c' k = Some (Some (lats, mlts)) /\
      forall j m l, nth_error mlts j = Some m -> nth_error lats j = Some l ->
        match m with
        | None => l = None
        | Some ml =>
            (rfun rc m = None -> l = None) /\
            forall c, rfun rc m = Some c ->
              (l = None <-> forall rho, ~ meets rc ml (rr rc + c) rho) /\
              forall lat, l = Some lat ->
                meets rc ml (rr rc + c) (colat (hemi b) lat) /\
                (rr rc + c <> 0 -> in_hemisphere (hemi b) lat ->
                 exists om a, normal_coord (mkBnd (hemi b) (blat b) (recs b) (Z.of_nat k)) (sc l) (sc m) =
                   Ok (out true [Some (blat b)], out true [om], out true [Some c], a))
        end.
Proof.
  intros b stored mlt ri ow c' after k rc Hc Hi Ls V E Nr Rq O. pose proof (proj1 Hc) as Hh.
  assert (K : (k < length (recs b))%nat) by (apply nth_error_Some; congruence).
  destruct (C35_stored_boundaries b stored mlt ri ow Hi Ls V) as [c1 [a1 [E1 [_ P]]]].
  rewrite E in E1. injection E1 as <- <-.
  destruct (nth_error stored k) as [old|] eqn:No; [|apply nth_error_None in No; lia].
  destruct (P k rc old Nr No) as [_ [_ P3]]. destruct (P3 Rq) as [lats [mlts [N [_ F]]]].
  { destruct O as [O|O]; [left; congruence|now right]. }
  exists lats, mlts. split; [exact N|]. intros j m l Nm Nl.
  destruct (forall2_nth _ _ _ _ _ F Nm) as [l' [Nl' Q]]. rewrite Nl in Nl'. injection Nl' as <-.
  destruct m as [ml|]; [|rewrite boundary_pt_nan in Q; now injection Q].
  pose proof (boundary_pt_spec (hemi b) rc ml Hh) as S. split.
  - intros Fn. rewrite Fn, Q in S. now injection S.
  - intros c Fc. rewrite Fc in S. rewrite Q in S. split.
    + destruct S as [[lat [S1 [S2 _]]]|[S1 S2]].
      * injection S1 as ->. split; [discriminate|]. intros X. exfalso. exact (X _ S2).
      * injection S1 as ->. tauto.
    + intros lat ->. destruct S as [[lat' [S1 [S2 _]]]|[S1 _]]; [|discriminate].
      injection S1 as <-. split; [exact S2|]. intros Hr Hl.
      set (b' := mkBnd (hemi b) (blat b) (recs b) (Z.of_nat k)).
      assert (Sel : selected b' rc) by (split; [cbn; lia|cbn; rewrite Nat2Z.id; exact Nr]).
      destruct (normal_coord_sc b' (Some lat) (Some ml)) as [x [om [cc [E2 K2]]]].
      rewrite (proj2 (current_selected b' rc) Sel) in K2. cbn [hemi blat b'] in K2.
      rewrite (inside_right _ _ Hh Hl) in K2. destruct K2 as [K2 ->].
      destruct (normal_pt_spec (hemi b) (blat b) rc lat ml c Fc Hr) as [om' [E3 _]]. cbv zeta in E3.
      rewrite E3 in K2. injection K2 as <- <-. rewrite Fc in E2.
      destruct S2 as [_ S2]. rewrite S2 in E2. destruct (config_abs _ _ Hc) as [C1 [C2 C3]].
      rewrite C1 in E2. unfold Rdiv in E2. rewrite Rabs_mult, Rabs_inv in E2.
      rewrite (Rabs_pos_eq (colat (hemi b) (blat b))) in E2 by lra.
      assert (0 < Rabs (rr rc + c)) by (apply Rabs_pos_lt; exact Hr).
      replace (Rabs (rr rc + c) * (colat (hemi b) (blat b) * / Rabs (rr rc + c)))
        with (colat (hemi b) (blat b)) in E2 by (field; lra).
      rewrite (lat_of_colat _ _ Hh) in E2. eexists. eexists. exact E2.
Qed.

(** A meridian that meets the boundary of [rec1], and one that misses a boundary
    far from the pole. *)
Example C34_case : meets rec1 0 (18 + 2) 24 /\
  (forall rho, ~ meets (mkRec 5 20 0 (fun m => m)) 12 5 rho).
Proof.
  split.
  - split; [lra|]. unfold dist, point, centre. cbn [fst snd rec1 rcent phic].
    replace (0 * PI / 12) with 0 by lra. replace (0 * PI / 180) with 0 by lra. rewrite cos_0, sin_0.
    match goal with |- sqrt ?x = _ => replace x with (20 * 20) by ring end.
    rewrite sqrt_square by lra. rewrite Rabs_pos_eq; lra.
  - intros rho [R M]. unfold dist, point, centre in M. cbn [fst snd rcent phic] in M.
    replace (12 * PI / 12) with PI in M by field. replace (0 * PI / 180) with 0 in M by lra.
    rewrite cos_0, sin_0, cos_PI, sin_PI in M. rewrite Rabs_pos_eq in M by lra.
    match type of M with sqrt ?x = _ => replace x with ((rho + 20) * (rho + 20)) in M by ring end.
    rewrite sqrt_square in M by lra. lra.
Qed.

(** ** C36 *)
Theorem C36_mlt_normalised_partial :
  forall x, -24 <= x < 48 -> exists y, wrap_once (Some x) = Some y /\ representative 24 0 x y.
Proof.
  intros x H. unfold wrap_once. destruct (Rlt_dec x 0).
  - destruct (Rle_dec 24 (x + 24)); [lra|]. eexists. split; [reflexivity|]. split; [exists 1%Z; lra|lra].
  - destruct (Rle_dec 24 x).
    + eexists. split; [reflexivity|]. split; [exists (-1)%Z; lra|lra].
    + eexists. split; [reflexivity|]. split; [exists 0%Z; lra|lra].
Qed.

(** The MLTs stored with the latitudes. *)
Theorem C36_stored_mlt_partial :
  forall b mlt c after k lats mlts, isint mlt = false ->
    get_aacgm_boundary_lat b None mlt None false = (c, None, after) ->
    nth_error c k = Some (Some (lats, mlts)) ->
    Forall (fun v => forall x, v = Some x -> -24 <= x < 48) (el mlt) ->
    Forall2 (fun v w => forall x, v = Some x -> exists y, w = Some y /\ representative 24 0 x y) (el mlt) mlts.
Proof.
  intros b mlt c after k lats mlts Hi E N F. unfold get_aacgm_boundary_lat in E. rewrite Hi in E.
  assert (L : length (repeat (@None (list fl * list fl)) (length (recs b))) = length (recs b)) by apply repeat_length.
  destruct (boundary_loop_spec (hemi b) (recs b) false (map wrap_once (el mlt))
     (map Z.of_nat (seq 0 (length (recs b)))) _ L) as [c' [E1 [L' P]]].
  { intros i I. apply in_map_iff in I. destruct I as [j [<- J]]. apply in_seq in J. exists j. split; [lia|now left]. }
  rewrite E1 in E. injection E as <- _.
  assert (K : (k < length (recs b))%nat).
  { rewrite <- L'. apply nth_error_Some. rewrite N. discriminate. }
  destruct (nth_error (recs b) k) as [rc|] eqn:Nr; [|apply nth_error_None in Nr; lia].
  assert (No : nth_error (repeat (@None (list fl * list fl)) (length (recs b))) k = Some None).
  { destruct (nth_error (repeat (@None (list fl * list fl)) (length (recs b))) k) as [v|] eqn:Q.
    - apply nth_error_In in Q. apply repeat_spec in Q. now rewrite Q.
    - apply nth_error_None in Q. lia. }
  rewrite (P k rc None Nr No) in N.
  destruct (in_dec _ _ _) as [I|I] in N.
  2:{ exfalso. apply I. apply in_map. apply in_seq. lia. }
  injection N as _ <-. clear -F. induction F as [|v l H F IH]; cbn [map]; constructor; [|exact IH].
  intros x ->. destruct (C36_mlt_normalised_partial x (H x eq_refl)) as [y [A B]]. now exists y.
Qed.

Theorem C36_mlt_normalised_refuted :
  exists b mlt c after lats w, get_aacgm_boundary_lat b None mlt None false = (c, None, after) /\
    nth_error c 0 = Some (Some (lats, [Some w])) /\ ~ (0 <= w < 24).
Proof.
  exists bnd1, (mkArr false false true [Some 150]).
  unfold get_aacgm_boundary_lat. cbn [isint el map recs bnd1 length repeat seq Z.of_nat hemi].
  change (wrap_once (Some 150)) with
    (Some (if Rle_dec 24 (if Rlt_dec 150 0 then 150 + 24 else 150) then
             (if Rlt_dec 150 0 then 150 + 24 else 150) - 24 else (if Rlt_dec 150 0 then 150 + 24 else 150))).
  destruct (Rlt_dec 150 0); [lra|]. destruct (Rle_dec 24 150); [|lra].
  cbn [boundary_loop]. change (py_get [@None (list fl * list fl)] 0) with (Some (@None (list fl * list fl))).
  change (py_get [rec1] 0) with (Some rec1). cbv iota. rewrite lats_of_eq.
  eexists. eexists. eexists. exists (150 - 24). split; [reflexivity|]. split; [reflexivity|]. lra.
Qed.

(** ** C43 *)
Theorem C43_reference_latitude :
  forall h bl,
    (h = 1%Z \/ h = (-1)%Z ->
       exists l, init_lat h (Some bl) = Ok l /\ Rabs l = Rabs bl /\ (bl <> 0 -> in_hemisphere h l)) /\
    (~ (h = 1%Z \/ h = (-1)%Z) -> init_lat h (Some bl) = Err ValueError).
Proof.
  intros h bl. unfold init_lat. split.
  - intros Hh. assert ((h =? 1) || (h =? -1) = true)%Z as ->.
    { apply orb_true_iff. rewrite !Z.eqb_eq. exact Hh. }
    cbn [negb]. eexists. split; [reflexivity|]. unfold sgn, in_hemisphere.
    destruct Hh as [-> | ->]; destruct (Rlt_dec 0 bl); [| | |]; try destruct (Rlt_dec bl 0); cbn [Z.eqb Pos.eqb];
      (split; [|intros; try lra]); try reflexivity;
      replace (bl * -1) with (- bl) by lra; apply Rabs_Ropp.
  - intros Hh. assert ((h =? 1) || (h =? -1) = false)%Z as ->; [|reflexivity].
    apply orb_false_iff. rewrite !Z.eqb_neq. tauto.
Qed.

(** The documented [boundary_lat=None] raises TypeError. *)
Theorem C43_none_rejected : forall h, h = 1%Z \/ h = (-1)%Z -> init_lat h None = Err TypeError.
Proof. intros h [-> | ->]; reflexivity. Qed.

Example C43_case : init_lat (-1) (Some 74) = Ok (74 * -1).
Proof. unfold init_lat, sgn. cbn [Z.eqb Pos.eqb orb negb]. destruct (Rlt_dec 0 74); [reflexivity|lra]. Qed.

(** ** C45 *)

(** The centre used by the conversions has first axis to midnight, second to dawn;
    the file has x to dawn and y to noon. *)
Theorem C45_cartesian_centre :
  forall x y r f,
    let '(rc, pc) := centre_of_xy x y in
    0 <= rc /\ 0 <= pc < 360 /\ centre (mkRec r rc pc f) = (- y, x).
Proof.
  intros x y r f. unfold centre_of_xy. set (a := atan2 y x). pose proof PI_RGT_0 as PP.
  assert (AB : - PI < a <= PI) by apply atan2_bound.
  assert (D : -180 < degrees a <= 180).
  { unfold degrees. split; apply (Rmult_lt_reg_r PI) || apply (Rmult_le_reg_r PI); try lra;
      unfold Rdiv; rewrite Rmult_assoc, Rinv_l by lra; nra. }
  split; [apply sqrt_pos|]. split; [destruct (Rlt_dec (degrees a + 90) 0); lra|].
  unfold centre. cbn [rcent phic].
  destruct (atan2_spec y x) as [E1 E2]. fold a in E1, E2.
  set (p := (if Rlt_dec (degrees a + 90) 0 then degrees a + 90 + 360 else degrees a + 90) * PI / 180).
  assert (S : shifted (2 * PI) (a + PI / 2) p).
  { unfold p, degrees. destruct (Rlt_dec (a * 180 / PI + 90) 0); [exists 1%Z|exists 0%Z]; field; lra. }
  destruct (shifted_trig _ _ S) as [S1 S2].
  assert (C1 : cos (a + PI / 2) = - sin a) by (rewrite cos_plus, cos_PI2, sin_PI2; ring).
  assert (C2 : sin (a + PI / 2) = cos a) by (rewrite sin_plus, cos_PI2, sin_PI2; ring).
  f_equal.
  - replace (cos p) with (- sin a) by congruence. rewrite Ropp_mult_distr_r_reverse. f_equal. symmetry. exact E2.
  - replace (sin p) with (cos a) by congruence. symmetry. exact E1.
Qed.

(** A centre 3 degrees towards dusk and 4 towards midnight. *)
Example C45_case : fst (centre_of_xy (-3) (-4)) = 5.
Proof.
  unfold centre_of_xy. cbn [fst]. replace ((-3) ^ 2 + (-4) ^ 2) with (5 * 5) by ring. apply sqrt_square. lra.
Qed.

(** ** C79: integer MLT *)
Theorem C79_mlt_values_accepted_partial :
  forall b stored mlt ow, isint mlt = false -> length stored = length (recs b) ->
    exists c' after, get_aacgm_boundary_lat b (Some stored) mlt None ow = (c', None, after).
Proof.
  intros b stored mlt ow Hi Ls. unfold get_aacgm_boundary_lat. rewrite Hi.
  destruct (boundary_loop_spec (hemi b) (recs b) ow (map wrap_once (el mlt))
     (map Z.of_nat (seq 0 (length (recs b)))) stored Ls) as [c' [E1 _]].
  { intros i I. apply in_map_iff in I. destruct I as [j [<- J]]. apply in_seq in J. exists j. split; [lia|now left]. }
  rewrite E1. eexists. eexists. reflexivity.
Qed.

Theorem C79_mlt_values_accepted_refuted :
  forall b stored mlt ri ow, isint mlt = true ->
    exists c after, get_aacgm_boundary_lat b stored mlt ri ow = (c, Some TypeError, after).
Proof. intros b stored mlt ri ow H. unfold get_aacgm_boundary_lat. rewrite H. eexists. eexists. reflexivity. Qed.

Example C79_case : isint (mkArr false true true [Some 0; Some 6]) = true /\ isint (sc (Some 5)) = false.
Proof. split; reflexivity. Qed.

(** ** C80: geographic positions *)

(** aacgmv2 converts back what it converted: the inverse of a magnetic position,
    at any MLT equal modulo 24 hours, is the geographic one modulo 360 degrees. *)
Definition aacgm_inverse (g : aacgm) : Prop :=
  forall lat lon hgt a m m', to_mag g (Some lat) (Some lon) hgt = (Some a, Some m) ->
    shifted 24 m m' ->
    exists lon', to_geo g (Some a) (mlt2lon g (Some m')) hgt = (Some lat, Some lon') /\ shifted 360 lon lon'.

Theorem C80_geographic_round_trip :
  forall b rc g uth lat slt hgt olat omlt c,
    config_ok (hemi b) (blat b) -> selected b rc -> aacgm_inverse g ->
    (forall la lo h a m, to_mag g la lo h = (Some a, m) -> -90 < a < 90) ->
    (forall m, exists c, rfun rc (Some m) = Some c /\ rr rc + c <> 0) ->
    normal_coord_geo b g uth (Some lat) (Some slt) hgt = Ok (Some olat, Some omlt, Some c) ->
    in_hemisphere (hemi b) olat ->
    exists slt', revert_coord_geo b g uth (Some olat) (Some omlt) (Some c) hgt = Ok (Some lat, Some slt') /\
      representative 24 0 slt slt'.
Proof.
  intros b rc g uth lat slt hgt olat omlt c Hc Hs Inv Rng Cor E Ho. pose proof (proj1 Hc) as Hh.
  pose proof (proj2 (current_selected b rc) Hs) as Cu.
  unfold normal_coord_geo in E. rewrite Cu in E. unfold geo_to_mag in E.
  destruct (C20_slt2glon_spec slt uth) as [lon [E1 [_ S1]]]. rewrite E1 in E. cbn [bind] in E.
  destruct (to_mag g (Some lat) (Some lon) hgt) as [[a|] [m|]] eqn:T; cbn [fst snd] in E.
  - destruct (wrong_side (hemi b) (Some a)) eqn:W; [discriminate|].
    destruct (Cor m) as [c0 [Hf Hr]]. rewrite Hf in E.
    destruct (normal_pt (hemi b) (blat b) rc (Some a) (Some m)) as [[x y]|] eqn:N; [|discriminate].
    cbn [bind fst snd] in E. injection E as -> -> ->.
    pose proof (Rng _ _ _ _ _ T) as RA.
    assert (CA : 0 < colat (hemi b) a) by (unfold colat; destruct Hh as [-> | ->]; lra).
    destruct (round_trip_nr _ _ _ _ _ _ _ _ Hc Hf Hr (Rlt_le _ _ CA) N) as [m' [R [_ S]]].
    unfold revert_coord_geo. rewrite Cu, (inside_right _ _ Hh Ho), R. cbn [bind fst snd].
    unfold mag_to_geo. destruct (Inv lat lon hgt a m m' T (S CA)) as [lon' [T2 S2]]. rewrite T2.
    destruct (C20_glon2slt_spec lon' uth) as [s' [E3 [B3 S3]]]. rewrite E3. cbn [bind].
    exists s'. split; [reflexivity|]. split; [|lra].
    eapply shifted_trans; [|exact S3]. pose proof (shifted_trans _ _ _ _ S1 S2) as S4.
    apply (shifted_scale (/ 15)) in S4. apply (shifted_add uth) in S4.
    replace (360 * / 15) with 24 in S4 by lra.
    replace ((slt - uth) * 15 * / 15 + uth) with slt in S4 by lra. exact S4.
  - destruct (wrong_side (hemi b) (Some a)); [discriminate|].
    destruct (normal_pt_total (hemi b) (blat b) rc (Some a) None) as [u [v [Z [_ [_ [_ Z2]]]]]].
    assert (u = None) as -> by (apply Z2; tauto). rewrite Z in E. discriminate.
  - discriminate.
  - discriminate.
Qed.

(** Such converters exist: magnetic coordinates equal to geographic ones, MLT the
    longitude over 15. *)
Definition aacgm0 : aacgm :=
  mkAacgm (fun la lo _ => match la with
             | Some a => if Rlt_dec (-90) a then if Rlt_dec a 90 then (la, fmap (fun l => l / 15) lo) else (None, None)
                         else (None, None)
             | None => (None, None) end)
          (fun m => fmap (fun x => x * 15) m) (fun la lo _ => (la, lo)).

Example C80_case : aacgm_inverse aacgm0 /\
  (forall la lo h a m, to_mag aacgm0 la lo h = (Some a, m) -> -90 < a < 90).
Proof.
  split.
  - intros lat lon hgt a m m' E S. cbn in E. destruct (Rlt_dec (-90) lat); [|discriminate].
    destruct (Rlt_dec lat 90); [|discriminate]. injection E as <- <-. exists (m' * 15). split; [reflexivity|].
    apply (shifted_scale 15) in S. replace (24 * 15) with 360 in S by lra.
    replace (lon / 15 * 15) with lon in S by lra. exact S.
  - intros la lo h a m E. destruct la as [x|]; [|discriminate]. cbn in E.
    destruct (Rlt_dec (-90) x); [|discriminate]. destruct (Rlt_dec x 90); [|discriminate].
    injection E as <- _. lra.
Qed.

Print Assumptions C27_boundary_to_reference.
Print Assumptions C28_normal_then_revert.
Print Assumptions C28_normal_then_revert_arrays.
Print Assumptions C29_revert_then_normal.
Print Assumptions C30_normal_ranges.
Print Assumptions C30_revert_ranges.
Print Assumptions C31_undefined_is_nan_partial.
Print Assumptions C31_mixed_input_partial.
Print Assumptions C31_mixed_input_refuted.
Print Assumptions C31_integer_arrays_fail.
Print Assumptions C32_elementwise_partial.
Print Assumptions C32_revert_elementwise_partial.
Print Assumptions C32_elementwise_refuted.
Print Assumptions C33_arguments_kept_partial.
Print Assumptions C33_arguments_kept_refuted.
Print Assumptions C35_stored_boundaries.
Print Assumptions C35_kept_over_any_history.
Print Assumptions C35_only_requested.
Print Assumptions C34_on_boundary.
Print Assumptions C36_mlt_normalised_partial.
Print Assumptions C36_stored_mlt_partial.
Print Assumptions C36_mlt_normalised_refuted.
Print Assumptions C43_reference_latitude.
Print Assumptions C43_none_rejected.
Print Assumptions C45_cartesian_centre.
Print Assumptions C79_mlt_values_accepted_partial.
Print Assumptions C79_mlt_values_accepted_refuted.
Print Assumptions C80_geographic_round_trip.
