(** Lemmas about round trips, boundary latitudes, arrays and stored boundaries. *)
From Coq Require Import Reals ZArith List Bool Lia Lra.
From Verif Require Import PyBase RangeModel RangeSpec RangeProofs CoordModel CoordSpec CoordProofs.
Import ListNotations.
Open Scope R_scope.

(** ** Round trips *)
Lemma h_sq h : h = 1%Z \/ h = (-1)%Z -> IZR h * IZR h = 1.
Proof. intros [-> | ->]; lra. Qed.

Lemma colat_inv h d : h = 1%Z \/ h = (-1)%Z -> colat h (IZR h * (90 - d)) = d.
Proof. intros H. unfold colat. destruct H as [-> | ->]; lra. Qed.

Lemma lat_of_colat h lat : h = 1%Z \/ h = (-1)%Z -> IZR h * (90 - colat h lat) = lat.
Proof. intros H. unfold colat. destruct H as [-> | ->]; lra. Qed.

Lemma config_abs h bl : config_ok h bl -> 90 - Rabs bl = colat h bl /\ 0 < colat h bl < 90 /\
  Rabs bl = IZR h * bl.
Proof.
  intros [[-> | ->] H]; unfold colat.
  - rewrite Rabs_pos_eq by lra. lra.
  - rewrite Rabs_left by lra. lra.
Qed.

Lemma norm_point d m : 0 <= d -> sqrt (fst (point d m) ^ 2 + snd (point d m) ^ 2) = d.
Proof.
  intros H. unfold point. cbn [fst snd].
  replace ((d * cos (m * PI / 12)) ^ 2 + (d * sin (m * PI / 12)) ^ 2) with
    (d * d * ((sin (m * PI / 12))² + (cos (m * PI / 12))²)) by (unfold Rsqr; ring).
  rewrite sin2_cos2, Rmult_1_r. now apply sqrt_square.
Qed.

Lemma round_trip_nr h bl rc lat mlt c ol om :
  config_ok h bl -> rfun rc (Some mlt) = Some c -> rr rc + c <> 0 -> 0 <= colat h lat ->
  normal_pt h bl rc (Some lat) (Some mlt) = Ok (Some ol, Some om) ->
  exists m, revert_pt h bl rc (Some ol) (Some om) (Some c) = Ok (Some lat, Some m) /\
    0 <= m < 24 /\ (0 < colat h lat -> shifted 24 mlt m).
Proof.
  intros Hc Hf Hr Hl E. destruct (config_abs h bl Hc) as [C1 [C2 _]]. destruct Hc as [Hh _].
  destruct (normal_pt_spec h bl rc lat mlt c Hf Hr) as [m0 [E0 [_ P0]]].
  rewrite E0 in E. injection E as <- <-.
  set (P := point (colat h lat) mlt) in *. set (C := centre rc) in *.
  set (k := (90 - Rabs bl) / (rr rc + c)) in *. set (D := dist P C * Rabs k) in *.
  destruct (revert_pt_spec h bl rc (IZR h * (90 - D)) m0 c ltac:(lra)) as [m [E1 [B1 Q1]]].
  cbv zeta in E1, Q1. rewrite (colat_inv h D Hh) in E1, Q1. rewrite <- P0 in E1, Q1. cbn [fst snd] in E1, Q1.
  fold C in E1, Q1.
  assert (X : forall a b, (a - b) * k * ((rr rc + c) / colat h bl) + b = a).
  { intros a b. unfold k. rewrite C1. field. split; [lra|exact Hr]. }
  rewrite !X in E1. rewrite !X in Q1. unfold P in E1, Q1. rewrite norm_point in E1, Q1 by exact Hl.
  rewrite (lat_of_colat h lat Hh) in E1. exists m. split; [exact E1|]. split; [exact B1|].
  intros L. rewrite <- surjective_pairing in Q1. apply (point_inj _ _ _ _ L Hl) in Q1. apply Q1.
Qed.

Lemma round_trip_rn h bl rc olat omlt c al am :
  config_ok h bl -> rr rc + c <> 0 -> 0 <= colat h olat ->
  revert_pt h bl rc (Some olat) (Some omlt) (Some c) = Ok (Some al, Some am) ->
  rfun rc (Some am) = Some c ->
  exists m, normal_pt h bl rc (Some al) (Some am) = Ok (Some olat, Some m) /\
    0 <= m < 24 /\ (0 < colat h olat -> shifted 24 omlt m).
Proof.
  intros Hc Hr Hl E Hf. destruct (config_abs h bl Hc) as [C1 [C2 _]]. destruct Hc as [Hh _].
  destruct (revert_pt_spec h bl rc olat omlt c ltac:(lra)) as [m1 [E1 [_ Q1]]]. cbv zeta in E1, Q1.
  rewrite E1 in E. injection E as <- <-.
  set (N := point (colat h olat) omlt) in *. set (C := centre rc) in *.
  set (s := (rr rc + c) / colat h bl) in *. cbn [fst snd] in *.
  set (q := sqrt ((fst N * s + fst C) ^ 2 + (snd N * s + snd C) ^ 2)) in *.
  destruct (normal_pt_spec h bl rc (IZR h * (90 - q)) m1 c Hf Hr) as [m [E2 [B2 P2]]].
  cbv zeta in E2, P2. rewrite (colat_inv h q Hh) in E2, P2. rewrite <- Q1 in E2, P2. cbn [fst snd] in E2, P2.
  fold C in E2, P2.
  set (k := (90 - Rabs bl) / (rr rc + c)) in *.
  assert (X : forall a b, (a * s + b - b) * k = a).
  { intros a b. unfold k, s. rewrite C1. field. split; [exact Hr|lra]. }
  assert (D : dist (fst N * s + fst C, snd N * s + snd C) C * Rabs k = colat h olat).
  { unfold dist. cbn [fst snd]. rewrite <- sqrt_sq_pair, !X. unfold N. now apply norm_point. }
  rewrite D in E2, P2. rewrite !X in P2. rewrite (lat_of_colat h olat Hh) in E2.
  exists m. split; [exact E2|]. split; [exact B2|]. intros L.
  rewrite <- surjective_pairing in P2. unfold N in P2. apply (point_inj _ _ _ _ L Hl) in P2. apply P2.
Qed.

(** ** Boundary latitudes *)
Lemma dist_meridian rc rho mlt d :
  cos d = cos (mlt * PI / 12 - phic rc * PI / 180) ->
  (fst (point rho mlt) - fst (centre rc)) ^ 2 + (snd (point rho mlt) - snd (centre rc)) ^ 2 =
  rho ^ 2 - 2 * rho * (rcent rc * cos d) + rcent rc ^ 2.
Proof.
  intros E. rewrite E, cos_minus. unfold point, centre. cbn [fst snd].
  pose proof (sin2_cos2 (mlt * PI / 12)) as A. pose proof (sin2_cos2 (phic rc * PI / 180)) as B.
  unfold Rsqr in A, B. 
  set (ca := cos (mlt * PI / 12)) in *. set (sa := sin (mlt * PI / 12)) in *.
  set (cb := cos (phic rc * PI / 180)) in *. set (sb := sin (phic rc * PI / 180)) in *.
  replace ((rho * ca - rcent rc * cb) ^ 2 + (rho * sa - rcent rc * sb) ^ 2) with
    (rho ^ 2 * (sa * sa + ca * ca) - 2 * rho * (rcent rc * (ca * cb + sa * sb))
     + rcent rc ^ 2 * (sb * sb + cb * cb)) by ring.
  rewrite A, B. ring.
Qed.

Lemma boundary_angle rc mlt : exists d,
  (pm <- deg2hr (Some (phic rc)) ;; hr2rad (fmap2 (fun m p => m - p) (Some mlt) pm) (2 * PI)) = Ok (Some d) /\
  cos d = cos (mlt * PI / 12 - phic rc * PI / 180).
Proof.
  destruct (deg2hr_spec (phic rc)) as [p [E [_ S]]]. rewrite E. cbn [bind fmap2].
  destruct (hr2rad_trig (mlt - p)) as [d [E2 [C _]]]. exists d. split; [exact E2|]. rewrite C.
  assert (T : shifted (2 * PI) (mlt * PI / 12 - phic rc * PI / 180) ((mlt - p) * PI / 12)).
  { destruct S as [k ->]. exists (- k)%Z. rewrite opp_IZR. field. }
  apply (shifted_trig _ _ T).
Qed.

Lemma meets_eq rc mlt s rho d : cos d = cos (mlt * PI / 12 - phic rc * PI / 180) ->
  (meets rc mlt s rho <-> 0 <= rho /\ (rho - rcent rc * cos d) ^ 2 = s ^ 2 - (rcent rc * sin d) ^ 2).
Proof.
  intros E. unfold meets, dist. rewrite (dist_meridian rc rho mlt d E).
  set (q := rho ^ 2 - 2 * rho * (rcent rc * cos d) + rcent rc ^ 2).
  assert (Q : q = (rho - rcent rc * cos d) ^ 2 + (rcent rc * sin d) ^ 2).
  { unfold q. pose proof (sin2_cos2 d) as A. unfold Rsqr in A.
    replace (rcent rc ^ 2) with (rcent rc ^ 2 * (sin d * sin d + cos d * cos d)) by (rewrite A; ring). ring. }
  assert (Q0 : 0 <= q).
  { rewrite Q. pose proof (pow2_ge_0 (rho - rcent rc * cos d)). pose proof (pow2_ge_0 (rcent rc * sin d)). lra. }
  split; intros [H1 H2]; (split; [exact H1|]).
  - assert (q = s ^ 2).
    { rewrite <- (sqrt_def q Q0), H2. rewrite <- Rabs_mult. rewrite Rabs_pos_eq by nra. ring. }
    lra.
  - assert (E2 : q = s * s) by (rewrite Q; lra). rewrite E2. rewrite <- (sqrt_Rsqr_abs s). reflexivity.
Qed.

Lemma boundary_pt_spec h rc mlt : h = 1%Z \/ h = (-1)%Z ->
  match rfun rc (Some mlt) with
  | None => boundary_pt h rc (Some mlt) = Ok None
  | Some c =>
      (exists lat, boundary_pt h rc (Some mlt) = Ok (Some lat) /\
         meets rc mlt (rr rc + c) (colat h lat) /\
         forall rho, meets rc mlt (rr rc + c) rho -> rho <= colat h lat) \/
      (boundary_pt h rc (Some mlt) = Ok None /\ forall rho, ~ meets rc mlt (rr rc + c) rho)
  end.
Proof.
  intros Hh. destruct (boundary_angle rc mlt) as [d [E C]]. unfold boundary_pt.
  destruct (deg2hr (Some (phic rc))) as [p|] eqn:Ep; [|discriminate]. cbn [bind] in *.
  rewrite E. cbn [bind]. destruct (rfun rc (Some mlt)) as [c|]; [|reflexivity].
  change (fmap ?f (Some ?x)) with (Some (f x)). cbv beta iota.
  set (s := rr rc + c). set (disc := s ^ 2 - (rcent rc * sin d) ^ 2).
  destruct (Rlt_dec disc 0) as [N|N].
  - right. split; [reflexivity|]. intros rho M. apply (meets_eq rc mlt s rho d C) in M.
    destruct M as [_ M]. fold disc in M.
    pose proof (pow2_ge_0 (rho - rcent rc * cos d)). lra.
  - assert (D0 : 0 <= disc) by lra. pose proof (sqrt_pos disc) as SP. pose proof (sqrt_def disc D0) as SQ.
    assert (MAX : forall rho, meets rc mlt s rho -> rho <= rcent rc * cos d + sqrt disc).
    { intros rho M. apply (meets_eq rc mlt s rho d C) in M. destruct M as [_ M]. fold disc in M.
      assert (rho - rcent rc * cos d <= sqrt disc) by nra. lra. }
    destruct (Rlt_dec (rcent rc * cos d + sqrt disc) 0) as [L|L].
    + right. split; [reflexivity|]. intros rho M. pose proof (MAX rho M). destruct M. lra.
    + left. eexists. split; [reflexivity|]. cbv beta. rewrite (colat_inv h _ Hh).
      split; [|exact MAX]. apply (meets_eq rc mlt s _ d C). split; [lra|]. fold disc.
      replace (rcent rc * cos d + sqrt disc - rcent rc * cos d) with (sqrt disc) by lra.
      rewrite <- SQ at 2. ring.
Qed.

Lemma boundary_pt_total h rc mlt : exists lat, boundary_pt h rc mlt = Ok lat.
Proof.
  unfold boundary_pt. destruct (deg2hr_spec (phic rc)) as [p [-> _]]. cbn [bind].
  destruct mlt as [m|]; cbn [fmap2].
  - destruct (hr2rad_trig (m - p)) as [d [-> _]]. cbn [bind]. eexists. reflexivity.
  - rewrite hr2rad_none. cbn [bind]. eexists. reflexivity.
Qed.

Lemma boundary_pt_nan h rc : boundary_pt h rc None = Ok None.
Proof.
  unfold boundary_pt. destruct (deg2hr_spec (phic rc)) as [p [-> _]]. cbn [bind fmap2].
  rewrite hr2rad_none. reflexivity.
Qed.

(** ** Arrays *)
Lemma mapE_total {A B} (f : A -> res B) l : (forall a, exists b, f a = Ok b) ->
  exists bs, mapE f l = Ok bs /\ Forall2 (fun a b => f a = Ok b) l bs.
Proof.
  intros H. induction l as [|a l [bs [E F]]]; [exists []; split; [reflexivity|constructor]|].
  destruct (H a) as [b Hb]. exists (b :: bs). cbn [mapE]. rewrite Hb, E. split; [reflexivity|now constructor].
Qed.

Lemma f2_length {A B} (P : A -> B -> Prop) l l' : Forall2 P l l' -> length l = length l'.
Proof. induction 1; cbn; congruence. Qed.

Lemma forall2_nth {A B} (P : A -> B -> Prop) l l' i a : Forall2 P l l' -> nth_error l i = Some a ->
  exists b, nth_error l' i = Some b /\ P a b.
Proof.
  intros F. revert i. induction F as [|x y l l' Hxy F IH]; intros [|i] H; try discriminate.
  - injection H as <-. exists y. now split.
  - now apply IH.
Qed.

Lemma bc2_nth (a b : list fl) ps i p : bc2 a b = Ok ps -> nth_error ps i = Some p ->
  p = (belem a i, belem b i).
Proof.
  assert (G : forall (a b : list fl) i p, length a = length b -> nth_error (combine a b) i = Some p ->
            p = (nth i a None, nth i b None)).
  { clear. induction a as [|x a IH]; intros [|y b] i p H E; try discriminate; [destruct i; discriminate|].
    destruct i; cbn in *; [congruence|]. apply IH; [lia|exact E]. }
  intros H E. unfold bc2 in H.
  destruct a as [|x [|x' a]].
  - destruct b as [|y [|y' b]]; cbn in H; try (injection H as <-); try discriminate; destruct i; discriminate.
  - injection H as <-. rewrite nth_error_map in E.
    destruct (nth_error b i) as [y|] eqn:N; [|discriminate]. injection E as <-. cbn [belem]. f_equal.
    destruct b as [|y0 [|y1 b]]; cbn [belem].
    + destruct i; discriminate.
    + destruct i as [|i]; [now injection N|destruct i; discriminate].
    + symmetry. now apply nth_error_nth.
  - destruct b as [|y [|y' b]].
    + discriminate.
    + injection H as <-. change ((x, y) :: (x', y) :: map (fun x0 => (x0, y)) a)
        with (map (fun x0 => (x0, y)) (x :: x' :: a)) in E. rewrite nth_error_map in E.
      destruct (nth_error (x :: x' :: a) i) as [z|] eqn:N; [|discriminate]. injection E as <-.
      cbn [belem]. f_equal. symmetry. now apply nth_error_nth.
    + destruct (length (x :: x' :: a) =? length (y :: y' :: b))%nat eqn:L; [|discriminate].
      injection H as <-. apply Nat.eqb_eq in L.
      exact (G (x :: x' :: a) (y :: y' :: b) i p L E).
Qed.

Lemma wrong_belem h l i : forallb (wrong_side h) l = true -> wrong_side h (belem l i) = true.
Proof.
  intros H. rewrite forallb_forall in H. unfold belem.
  assert (G : wrong_side h (nth i l None) = true).
  { destruct (nth_in_or_default i l None) as [I| ->]; [now apply H|reflexivity]. }
  destruct l as [|x [|y l]]; try exact G. apply H. now left.
Qed.

Lemma right_belem h l i : existsb (wrong_side h) l = false ->
  wrong_side h (belem l i) = true -> belem l i = None /\ l <> [belem l i] /\ (length l <= i)%nat.
Proof.
  intros H W. assert (A : forall x, In x l -> wrong_side h x = false).
  { intros x Hx. apply not_true_iff_false. intros K. apply not_true_iff_false in H. apply H.
    apply existsb_exists. eauto. }
  unfold belem in *. destruct l as [|x [|y l]].
  - split; [now destruct i|]. split; [discriminate|cbn; lia].
  - rewrite A in W by (now left). discriminate.
  - destruct (nth_in_or_default i (x :: y :: l) None) as [I|D].
    + rewrite A in W by exact I. discriminate.
    + split; [exact D|]. split; [discriminate|].
      destruct (le_lt_dec (length (x :: y :: l)) i) as [L|L]; [exact L|].
      exfalso. rewrite A in W; [discriminate|]. now apply nth_In.
Qed.

Lemma belem_map (f : fl -> fl) l i : (i < length l \/ length l = 1)%nat ->
  belem (map f l) i = f (belem l i).
Proof.
  intros H. destruct l as [|x [|y l]]; [cbn in H; lia|reflexivity|].
  destruct H as [H|H]; [|discriminate]. unfold belem.
  change (map f (x :: y :: l)) with (f x :: f y :: map f l).
  change (f x :: f y :: map f l) with (map f (x :: y :: l)).
  rewrite (nth_indep _ None (f None)) by (now rewrite map_length). apply map_nth.
Qed.

Lemma normal_coord_sc b v m : exists l mm c,
  normal_coord b (sc v) (sc m) = Ok (out true [l], out true [mm], out true [c], [v]) /\
  match current b with
  | None => l = None /\ mm = None /\ c = None
  | Some rc => if wrong_side (hemi b) v then l = None /\ mm = None /\ c = None
               else normal_pt (hemi b) (blat b) rc v m = Ok (l, mm) /\ c = rfun rc m
  end.
Proof.
  unfold normal_coord. destruct (current b) as [rc|].
  - unfold check_side. cbn [el sc existsb forallb]. rewrite orb_false_r, andb_true_r.
    destruct (wrong_side (hemi b) v) eqn:W.
    + cbn [bind]. exists None, None, None. split; [reflexivity|auto].
    + cbn [bind bc2 map]. destruct (normal_pt_total (hemi b) (blat b) rc v m) as [l [mm [E _]]].
      cbn [mapE fst snd]. rewrite E. cbn [bind map fst snd].
      exists l, mm, (rfun rc m). split; [reflexivity|auto].
  - exists None, None, None. split; [reflexivity|auto].
Qed.

Lemma revert_coord_sc b v m c : exists l mm,
  revert_coord b (sc v) (sc m) (sc c) = Ok (out true [l], out true [mm]) /\
  match current b with
  | None => l = None /\ mm = None
  | Some rc => if wrong_side (hemi b) v then l = None /\ mm = None
               else revert_pt (hemi b) (blat b) rc v m c = Ok (l, mm)
  end.
Proof.
  unfold revert_coord. destruct (current b) as [rc|].
  - cbn [el sc forallb]. rewrite andb_true_r.
    destruct (wrong_side (hemi b) v) eqn:W.
    + exists None, None. split; [reflexivity|auto].
    + cbn [bind bc2 map]. destruct (revert_pt_total (hemi b) (blat b) rc v m c) as [l [mm [E _]]].
      cbn [mapE fst snd]. rewrite E. cbn [bind map fst snd].
      exists l, mm. split; [reflexivity|auto].
  - exists None, None. split; [reflexivity|auto].
Qed.

(** What a successful array call returns, element by element. *)
Lemma nth_error_repeat_none n i (x : fl) : nth_error (repeat None n) i = Some x -> x = None.
Proof. intros H. apply nth_error_In in H. now apply repeat_spec in H. Qed.

Lemma normal_coord_elem b lat lt L M C after i l m :
  normal_coord b lat lt = Ok (L, M, C, after) ->
  nth_error (el L) i = Some l -> nth_error (el M) i = Some m ->
  match current b with
  | None => l = None /\ m = None
  | Some rc => if wrong_side (hemi b) (belem (el lat) i) then l = None /\ m = None
               else normal_pt (hemi b) (blat b) rc (belem (el lat) i) (belem (el lt) i) = Ok (l, m)
  end.
Proof.
  intros E H1 H2. unfold normal_coord in E. destruct (current b) as [rc|].
  2:{ injection E as <- <- _ _. apply nth_error_repeat_none in H1. apply nth_error_repeat_none in H2. now subst. }
  unfold check_side in E.
  assert (MAIN : forall lats,
    (forall j, wrong_side (hemi b) (belem (el lat) j) = true -> belem lats j = None) ->
    (forall j p ps, bc2 lats (el lt) = Ok ps -> nth_error ps j = Some p ->
       wrong_side (hemi b) (belem (el lat) j) = false -> belem lats j = belem (el lat) j) ->
    (ps <- bc2 lats (el lt) ;;
     rs <- mapE (fun p => normal_pt (hemi b) (blat b) rc (fst p) (snd p)) ps ;;
     Ok (out (is0d lat && is0d lt) (map fst rs), out (is0d lat && is0d lt) (map snd rs),
         out (is0d lt) (map (rfun rc) (el lt)), if isnd lat then lats else el lat)) = Ok (L, M, C, after) ->
    if wrong_side (hemi b) (belem (el lat) i) then l = None /\ m = None
    else normal_pt (hemi b) (blat b) rc (belem (el lat) i) (belem (el lt) i) = Ok (l, m)).
  { intros lats W1 W2 K. destruct (bc2 lats (el lt)) as [ps|] eqn:Eb; [|discriminate]. cbn [bind] in K.
    destruct (mapE_total (fun p => normal_pt (hemi b) (blat b) rc (fst p) (snd p)) ps) as [rs [Er F]].
    { intros p. destruct (normal_pt_total (hemi b) (blat b) rc (fst p) (snd p)) as [x [y [Q _]]]. eauto. }
    rewrite Er in K. cbn [bind] in K. injection K as <- <- _ _. cbn [el out] in H1, H2.
    rewrite nth_error_map in H1, H2. destruct (nth_error rs i) as [[x y]|] eqn:Nr; [|discriminate].
    injection H1 as <-. injection H2 as <-.
    assert (Lps : length ps = length rs) by (eapply f2_length; exact F).
    destruct (nth_error ps i) as [p|] eqn:Np.
    2:{ apply nth_error_None in Np. rewrite Lps in Np. apply nth_error_None in Np. congruence. }
    destruct (forall2_nth _ _ _ _ _ F Np) as [q [Nq Q]]. rewrite Nr in Nq. injection Nq as <-.
    pose proof (bc2_nth _ _ _ _ _ Eb Np) as ->. cbn [fst snd] in Q.
    destruct (wrong_side (hemi b) (belem (el lat) i)) eqn:W.
    - rewrite (W1 i W) in Q. destruct (normal_pt_total (hemi b) (blat b) rc None (belem (el lt) i))
        as [u [v [Z [_ [_ [Z1 Z2]]]]]]. rewrite Z in Q. injection Q as <- <-.
      assert (u = None) by (apply Z2; now left). split; [assumption|now apply Z1].
    - rewrite (W2 i _ ps eq_refl Np W) in Q. cbn [fst snd]. exact Q. }
  destruct (existsb (wrong_side (hemi b)) (el lat)) eqn:X.
  - destruct (forallb (wrong_side (hemi b)) (el lat)) eqn:Y.
    + cbn [bind] in E. injection E as <- <- _ _. rewrite wrong_belem by exact Y.
      apply nth_error_repeat_none in H1. apply nth_error_repeat_none in H2. now subst.
    + destruct (isint lat); [discriminate|]. cbn [bind] in E.
      assert (OUT : forall j, (length (el lat) <= j)%nat -> length (el lat) <> 1%nat ->
                belem (map (fun v => if wrong_side (hemi b) v then None else v) (el lat)) j = None /\
                belem (el lat) j = None).
      { intros j L1 L2. destruct (el lat) as [|x [|y w]]; [now destruct j|now destruct L2|].
        unfold belem. split.
        - change (nth j (map (fun v => if wrong_side (hemi b) v then None else v) (x :: y :: w)) None = None).
          apply nth_overflow. now rewrite map_length.
        - now apply nth_overflow. }
      assert (IN : forall j, (length (el lat) <= j)%nat /\ length (el lat) <> 1%nat \/
                (j < length (el lat) \/ length (el lat) = 1)%nat) by (intros j; lia).
      refine (MAIN _ _ _ E).
      * intros j W. destruct (IN j) as [[L1 L2]|Q]; [now apply OUT|].
        rewrite belem_map by exact Q. now rewrite W.
      * intros j p ps _ _ W. destruct (IN j) as [[L1 L2]|Q].
        { destruct (OUT j L1 L2) as [-> ->]. reflexivity. }
        rewrite belem_map by exact Q. now rewrite W.
  - refine (MAIN _ _ _ E).
    + intros j W. now apply (right_belem (hemi b) (el lat) j).
    + reflexivity.
Qed.

Lemma normal_coord_len b lat lt L M C after : normal_coord b lat lt = Ok (L, M, C, after) ->
  length (el L) = length (el M).
Proof.
  unfold normal_coord. destruct (current b) as [rc|]; [|intros E; injection E as <- <- _ _; reflexivity].
  destruct (check_side (hemi b) lat) as [[lats|]|]; cbn [bind]; intros E; try discriminate.
  - destruct (bc2 lats (el lt)) as [ps|]; [|discriminate]. cbn [bind] in E.
    destruct (mapE _ ps) as [rs|]; [|discriminate]. cbn [bind] in E. injection E as <- <- _ _.
    cbn [el out]. now rewrite !map_length.
  - injection E as <- <- _ _. reflexivity.
Qed.

Lemma bc3_nth a b c ps qs i q : bc2 a b = Ok ps -> bc2 ps c = Ok qs -> nth_error qs i = Some q ->
  q = ((belem a i, belem b i), belem c i).
Proof.
  intros H1 H2 E.
  assert (G : forall (ps : list (fl * fl)) (c : list fl) i q, length ps = length c ->
            nth_error (combine ps c) i = Some q ->
            nth_error ps i = Some (fst q) /\ nth_error c i = Some (snd q)).
  { clear. induction ps as [|x a IH]; intros [|y b] i p H E; try discriminate; [destruct i; discriminate|].
    destruct i; cbn in *; [injection E as <-; auto|]. apply IH; [lia|exact E]. }
  assert (B : forall l j v, nth_error l j = Some v -> belem l j = v).
  { clear. intros l j v N. destruct l as [|x [|y l]].
    - destruct j; discriminate.
    - destruct j as [|j]; [now injection N|destruct j; discriminate].
    - unfold belem. now apply nth_error_nth. }
  unfold bc2 in H2. destruct ps as [|p [|p' ps]].
  - destruct c as [|y [|y' c]]; cbn in H2; try (injection H2 as <-); try discriminate; destruct i; discriminate.
  - injection H2 as <-. rewrite nth_error_map in E. destruct (nth_error c i) as [z|] eqn:N; [|discriminate].
    injection E as <-. pose proof (bc2_nth a b [p] 0 p H1 eq_refl) as P0. rewrite (B c i z N). f_equal.
    rewrite P0. assert (K : forall l : list fl, belem l 0 = belem l i \/ True) by (intros; now right). clear K.
    (* a one-element broadcast has one-element operands, or one of them empty *)
    unfold bc2 in H1. destruct a as [|x [|x' a]].
    + destruct b as [|y [|y' b]]; cbn in H1; discriminate.
    + destruct b as [|y [|y' b]]; cbn in H1; try discriminate. reflexivity.
    + destruct b as [|y [|y' b]]; cbn in H1; try discriminate.
      destruct (length a =? length b)%nat; discriminate.
  - destruct c as [|y [|y' c]].
    + discriminate.
    + injection H2 as <-.
      change ((p, y) :: (p', y) :: map (fun x0 => (x0, y)) ps)
        with (map (fun x0 => (x0, y)) (p :: p' :: ps)) in E. rewrite nth_error_map in E.
      destruct (nth_error (p :: p' :: ps) i) as [z|] eqn:N; [|discriminate]. injection E as <-.
      cbn [belem]. f_equal. exact (bc2_nth a b _ i z H1 N).
    + destruct (length (p :: p' :: ps) =? length (y :: y' :: c))%nat eqn:L; [|discriminate].
      injection H2 as <-. apply Nat.eqb_eq in L.
      destruct (G (p :: p' :: ps) (y :: y' :: c) i q L E) as [E1 E2].
      rewrite (surjective_pairing q). f_equal; [exact (bc2_nth a b _ i _ H1 E1)|].
      symmetry. exact (B _ _ _ E2).
Qed.

Lemma revert_coord_elem b olat omlt rcorr L M i l m :
  revert_coord b olat omlt rcorr = Ok (L, M) ->
  nth_error (el L) i = Some l -> nth_error (el M) i = Some m ->
  match current b with
  | None => l = None /\ m = None
  | Some rc => if forallb (wrong_side (hemi b)) (el olat) then l = None /\ m = None
               else revert_pt (hemi b) (blat b) rc (belem (el olat) i) (belem (el omlt) i)
                      (belem (el rcorr) i) = Ok (l, m)
  end.
Proof.
  intros E H1 H2. unfold revert_coord in E. destruct (current b) as [rc|].
  2:{ injection E as <- <-. apply nth_error_repeat_none in H1. apply nth_error_repeat_none in H2. now subst. }
  destruct (forallb (wrong_side (hemi b)) (el olat)).
  { injection E as <- <-. apply nth_error_repeat_none in H1. apply nth_error_repeat_none in H2. now subst. }
  destruct (bc2 (el olat) (el omlt)) as [ps|] eqn:E1; [|discriminate]. cbn [bind] in E.
  destruct (bc2 ps (el rcorr)) as [qs|] eqn:E2; [|discriminate]. cbn [bind] in E.
  set (f := fun q => revert_pt (hemi b) (blat b) rc (fst (fst q)) (snd (fst q)) (snd q)) in *.
  destruct (mapE_total f qs) as [rs [Er F]].
  { intros q. destruct (revert_pt_total (hemi b) (blat b) rc (fst (fst q)) (snd (fst q)) (snd q))
      as [x [y [Q _]]]. exists (x, y). exact Q. }
  rewrite Er in E. cbn [bind] in E. injection E as <- <-. cbn [el out] in H1, H2.
  rewrite nth_error_map in H1, H2. destruct (nth_error rs i) as [[x y]|] eqn:Nr; [|discriminate].
  injection H1 as <-. injection H2 as <-.
  assert (Lps : length qs = length rs) by (eapply f2_length; exact F).
  destruct (nth_error qs i) as [q|] eqn:Nq.
  2:{ apply nth_error_None in Nq. rewrite Lps in Nq. apply nth_error_None in Nq. congruence. }
  destruct (forall2_nth _ _ _ _ _ F Nq) as [r [Nr' Q]]. rewrite Nr in Nr'. injection Nr' as <-.
  pose proof (bc3_nth _ _ _ _ _ _ _ E1 E2 Nq) as ->. exact Q.
Qed.

(** ** Selection and hemispheres *)
Lemma current_selected b rc : current b = Some rc <-> selected b rc.
Proof.
  unfold current, selected, zlen. destruct ((rind b <? 0) || (Z.of_nat (length (recs b)) <=? rind b))%Z eqn:E.
  - apply orb_true_iff in E. split; [discriminate|]. intros [H _]. destruct E as [E|E].
    + apply Z.ltb_lt in E. lia.
    + apply Z.leb_le in E. lia.
  - apply orb_false_iff in E. destruct E as [E1 E2]. apply Z.ltb_ge in E1. apply Z.leb_gt in E2.
    split; [intros H; split; [lia|exact H]|tauto].
Qed.

Lemma current_none b : current b = None <-> none_selected b.
Proof.
  unfold none_selected. split.
  - intros H. destruct (Z_lt_dec (rind b) 0) as [L|L]; [now left|].
    destruct (Z_le_dec (Z.of_nat (length (recs b))) (rind b)) as [M|M]; [now right|]. exfalso.
    destruct (nth_error (recs b) (Z.to_nat (rind b))) as [rc|] eqn:N.
    + assert (C : current b = Some rc) by (apply current_selected; split; [lia|exact N]). congruence.
    + apply nth_error_None in N. lia.
  - intros H. destruct (current b) as [rc|] eqn:E; [|reflexivity].
    apply current_selected in E. destruct E. lia.
Qed.

Lemma wrong_side_outside h v : h = 1%Z \/ h = (-1)%Z -> (wrong_side h v = true <-> outside h v).
Proof.
  intros H. destruct v as [x|]; cbn; [|tauto]. unfold in_hemisphere, sgn.
  destruct (Rlt_dec 0 x); [|destruct (Rlt_dec x 0)]; destruct H as [-> | ->]; cbn;
    split; intros; try discriminate; try reflexivity; try lra; exfalso; lra.
Qed.

Lemma inside_right h x : h = 1%Z \/ h = (-1)%Z -> in_hemisphere h x -> wrong_side h (Some x) = false.
Proof.
  intros H I. apply not_true_iff_false. rewrite (wrong_side_outside h (Some x) H). cbn. tauto.
Qed.

(** ** Stored boundaries *)
Lemma py_get_denotes {A} (l : list A) i a :
  py_get l i = Some a <-> exists k, denotes (length l) i k /\ nth_error l k = Some a.
Proof.
  unfold py_get, denotes. split.
  - destruct ((0 <=? i) && (i <? Z.of_nat (length l)))%Z eqn:E1.
    + intros H. exists (Z.to_nat i). apply andb_true_iff in E1. destruct E1 as [E1 E2].
      apply Z.leb_le in E1. apply Z.ltb_lt in E2. split; [|exact H]. split; lia.
    + destruct ((- Z.of_nat (length l) <=? i) && (i <? 0))%Z eqn:E2; [|discriminate].
      intros H. exists (Z.to_nat (Z.of_nat (length l) + i)). apply andb_true_iff in E2. destruct E2 as [E2 E3].
      apply Z.leb_le in E2. apply Z.ltb_lt in E3. split; [|exact H]. split; lia.
  - intros [k [[K D] N]].
    destruct ((0 <=? i) && (i <? Z.of_nat (length l)))%Z eqn:E1.
    + apply andb_true_iff in E1. destruct E1 as [E1 E2]. apply Z.leb_le in E1. apply Z.ltb_lt in E2.
      replace (Z.to_nat i) with k by lia. exact N.
    + apply andb_false_iff in E1. rewrite Z.leb_gt, Z.ltb_ge in E1.
      assert (E2 : ((- Z.of_nat (length l) <=? i) && (i <? 0) = true)%Z).
      { apply andb_true_iff. rewrite Z.leb_le, Z.ltb_lt. lia. }
      rewrite E2. replace (Z.to_nat (Z.of_nat (length l) + i)) with k by lia. exact N.
Qed.

Lemma denotes_fun n i k k' : denotes n i k -> denotes n i k' -> k = k'.
Proof. unfold denotes. intros. lia. Qed.

Lemma denotes_dec n i k : {denotes n i k} + {~ denotes n i k}.
Proof.
  unfold denotes. destruct (lt_dec k n); [|right; tauto].
  destruct (Z.eq_dec i (Z.of_nat k)); [left; tauto|].
  destruct (Z.eq_dec i (Z.of_nat k - Z.of_nat n)); [left; tauto|right; tauto].
Qed.

Lemma set_at_nth {A} (l : list A) i k (v : A) : denotes (length l) i k ->
  length (set_at l i v) = length l /\
  forall j, nth_error (set_at l i v) j = if Nat.eq_dec j k then Some v else nth_error l j.
Proof.
  intros [K D]. unfold set_at, zlen.
  replace (Z.to_nat (if (i <? 0)%Z then (Z.of_nat (length l) + i)%Z else i)) with k.
  2:{ destruct (i <? 0)%Z eqn:E; [apply Z.ltb_lt in E|apply Z.ltb_ge in E]; lia. }
  clear D i. revert k K. induction l as [|a l IH]; intros k K; [cbn in K; lia|].
  destruct k as [|k].
  - cbn. split; [reflexivity|]. intros [|j]; reflexivity.
  - cbn in K. destruct (IH k ltac:(lia)) as [I1 I2]. split; [cbn; f_equal; exact I1|].
    intros [|j]; [reflexivity|]. cbn [firstn app nth_error]. 
    change (firstn (S k) (a :: l)) with (a :: firstn k l). change (skipn (S (S k)) (a :: l)) with (skipn (S k) l).
    cbn [app nth_error]. rewrite I2. destruct (Nat.eq_dec j k); destruct (Nat.eq_dec (S j) (S k)); (reflexivity || lia).
Qed.

(** The boundary latitudes of a record. *)
Definition lats_of h rc mlts := match mapE (boundary_pt h rc) mlts with Ok l => l | Err _ => [] end.

Lemma lats_of_eq h rc mlts : mapE (boundary_pt h rc) mlts = Ok (lats_of h rc mlts).
Proof.
  unfold lats_of. destruct (mapE_total (boundary_pt h rc) mlts) as [l [-> _]]; [|reflexivity].
  intros a. apply boundary_pt_total.
Qed.

Lemma boundary_loop_spec h rcs ow mlts rinds c :
  length c = length rcs ->
  (forall i, In i rinds -> exists k, denotes (length rcs) i k) ->
  exists c', boundary_loop h rcs ow mlts rinds c = (c', None) /\ length c' = length rcs /\
    forall k rc old, nth_error rcs k = Some rc -> nth_error c k = Some old ->
      nth_error c' k =
        Some (if in_dec Z.eq_dec (Z.of_nat k) rinds then
                (match old, ow with Some _, false => old | _, _ => Some (lats_of h rc mlts, mlts) end)
              else if in_dec Z.eq_dec (Z.of_nat k - Z.of_nat (length rcs))%Z rinds then
                (match old, ow with Some _, false => old | _, _ => Some (lats_of h rc mlts, mlts) end)
              else old).
Proof.
  revert c. induction rinds as [|i rinds IH]; intros c Lc V.
  - exists c. split; [reflexivity|]. split; [exact Lc|]. intros. cbn. assumption.
  - destruct (V i (or_introl eq_refl)) as [k [K D]].
    destruct (nth_error rcs k) as [rc|] eqn:Nr; [|apply nth_error_None in Nr; lia].
    destruct (nth_error c k) as [old|] eqn:Nc; [|apply nth_error_None in Nc; lia].
    assert (G1 : py_get c i = Some old) by (apply py_get_denotes; exists k; rewrite Lc; split; [split; assumption|exact Nc]).
    assert (G2 : py_get rcs i = Some rc) by (apply py_get_denotes; exists k; split; [split; assumption|exact Nr]).
    cbn [boundary_loop]. rewrite G1, G2.
    assert (SKIP : forall c1, length c1 = length rcs ->
              (forall j, j <> k -> nth_error c1 j = nth_error c j) ->
              nth_error c1 k = Some (match old, ow with Some _, false => old | _, _ => Some (lats_of h rc mlts, mlts) end) ->
              exists c', boundary_loop h rcs ow mlts rinds c1 = (c', None) /\ length c' = length rcs /\
    forall k0 rc0 old0, nth_error rcs k0 = Some rc0 -> nth_error c k0 = Some old0 ->
                  nth_error c' k0 =
                    Some (if in_dec Z.eq_dec (Z.of_nat k0) (i :: rinds) then
                            (match old0, ow with Some _, false => old0 | _, _ => Some (lats_of h rc0 mlts, mlts) end)
                          else if in_dec Z.eq_dec (Z.of_nat k0 - Z.of_nat (length rcs))%Z (i :: rinds) then
                            (match old0, ow with Some _, false => old0 | _, _ => Some (lats_of h rc0 mlts, mlts) end)
                          else old0)).
    { intros c1 L1 O1 S1. destruct (IH c1 L1 ltac:(intros; apply V; now right)) as [c' [E [L' P]]].
      exists c'. split; [exact E|]. split; [exact L'|]. intros k0 rc0 old0 R0 C0.
      assert (K0 : (k0 < length rcs)%nat) by (apply nth_error_Some; congruence).
      destruct (Nat.eq_dec k0 k) as [->|NE].
      - rewrite Nr in R0. injection R0 as <-. rewrite Nc in C0. injection C0 as <-.
        rewrite (P k rc _ Nr S1). f_equal.
        set (w := match old with Some _ => _ | None => _ end).
        assert (W : (match w, ow with Some _, false => w | _, _ => Some (lats_of h rc mlts, mlts) end) = w)
          by (unfold w; destruct old; destruct ow; reflexivity).
        rewrite W.
        assert (In (Z.of_nat k) (i :: rinds) \/ In (Z.of_nat k - Z.of_nat (length rcs))%Z (i :: rinds))
          by (destruct D as [-> | ->]; [left|right]; now left).
        destruct (in_dec Z.eq_dec (Z.of_nat k) (i :: rinds)); destruct (in_dec Z.eq_dec (Z.of_nat k) rinds);
          destruct (in_dec Z.eq_dec (Z.of_nat k - Z.of_nat (length rcs))%Z (i :: rinds));
          destruct (in_dec Z.eq_dec (Z.of_nat k - Z.of_nat (length rcs))%Z rinds); try reflexivity; tauto.
      - rewrite <- (O1 k0 NE) in C0. rewrite (P k0 rc0 old0 R0 C0). f_equal.
        assert (Z.of_nat k0 <> i /\ (Z.of_nat k0 - Z.of_nat (length rcs))%Z <> i) by lia.
        destruct (in_dec Z.eq_dec (Z.of_nat k0) (i :: rinds)) as [A|A];
          destruct (in_dec Z.eq_dec (Z.of_nat k0) rinds) as [B|B]; cbn in A;
          destruct (in_dec Z.eq_dec (Z.of_nat k0 - Z.of_nat (length rcs))%Z (i :: rinds)) as [A'|A'];
          destruct (in_dec Z.eq_dec (Z.of_nat k0 - Z.of_nat (length rcs))%Z rinds) as [B'|B']; cbn in A';
          try reflexivity; intuition congruence. }
    destruct (set_at_nth c i k (Some (lats_of h rc mlts, mlts)) ltac:(split; [lia|rewrite Lc; exact D])) as [Z1 Z2].
    destruct old as [o|].
    + destruct ow.
      * rewrite lats_of_eq. apply SKIP; [lia| |].
        { intros j Hj. rewrite Z2. destruct (Nat.eq_dec j k); [contradiction|reflexivity]. }
        { rewrite Z2. destruct (Nat.eq_dec k k); [reflexivity|contradiction]. }
      * apply SKIP; [exact Lc|reflexivity|exact Nc].
    + rewrite lats_of_eq. apply SKIP; [lia| |].
      { intros j Hj. rewrite Z2. destruct (Nat.eq_dec j k); [contradiction|reflexivity]. }
      { rewrite Z2. destruct (Nat.eq_dec k k); [reflexivity|contradiction]. }
Qed.

Lemma scale_cmp k s q d : 0 < k -> k * s = q ->
  (d = s <-> d * k = q) /\ (d < s <-> d * k < q) /\ (s < d <-> q < d * k).
Proof.
  intros K <-. rewrite (Rmult_comm k s). split; [|split].
  - split; [now intros ->|]. intros H. apply (Rmult_eq_reg_r k); [exact H|lra].
  - split; [now apply Rmult_lt_compat_r|]. now apply Rmult_lt_reg_r.
  - split; [now apply Rmult_lt_compat_r|]. now apply Rmult_lt_reg_r.
Qed.

Lemma dist_zero p q : dist p q = 0 <-> p = q.
Proof.
  unfold dist. split.
  - intros H. apply sqrt_eq_0 in H.
    2:{ pose proof (pow2_ge_0 (fst p - fst q)). pose proof (pow2_ge_0 (snd p - snd q)). lra. }
    assert (fst p - fst q = 0 /\ snd p - snd q = 0).
    { pose proof (pow2_ge_0 (fst p - fst q)). pose proof (pow2_ge_0 (snd p - snd q)).
      split; apply Rsqr_0_uniq; unfold Rsqr; lra. }
    rewrite (surjective_pairing p), (surjective_pairing q). f_equal; lra.
  - intros ->. rewrite !Rminus_eq_0. replace (0 ^ 2 + 0 ^ 2) with 0 by ring. apply sqrt_0.
Qed.
