(** Turning around the pole, and exchanging dawn and dusk. *)
From Coq Require Import Reals ZArith List Bool Lia Lra.
From Verif Require Import PyBase RangeModel RangeSpec RangeProofs CoordModel CoordSpec CoordProofs CoordProofs2 DualCoordModel
  SymSpec SymProofs.
Import ListNotations.
Open Scope R_scope.

(** Linear isometries of the plane. *)
Record lin := mkLin { la : R; lb : R; lc : R; ld : R; l1 : la ^ 2 + lc ^ 2 = 1; l2 : lb ^ 2 + ld ^ 2 = 1; l3 : la * lb + lc * ld = 0 }.
Definition app (f : lin) (p : R * R) : R * R := (la f * fst p + lb f * snd p, lc f * fst p + ld f * snd p).

Lemma app_norm f p : fst (app f p) ^ 2 + snd (app f p) ^ 2 = fst p ^ 2 + snd p ^ 2.
Proof.
  destruct f as [a b c d H1 H2 H3]. unfold app. cbn [la lb lc ld fst snd].
  replace ((a * fst p + b * snd p) ^ 2 + (c * fst p + d * snd p) ^ 2) with
    ((a ^ 2 + c ^ 2) * fst p ^ 2 + (b ^ 2 + d ^ 2) * snd p ^ 2 + 2 * (a * b + c * d) * fst p * snd p) by ring.
  rewrite H1, H2, H3. ring.
Qed.
Lemma app_dist f p q : dist (app f p) (app f q) = dist p q.
Proof.
  pose proof (app_norm f (fst p - fst q, snd p - snd q)) as H. unfold dist. f_equal. cbn [fst snd] in H. rewrite <- H.
  unfold app. cbn [fst snd]. ring.
Qed.

Definition turn (a : R) : lin.
Proof.
  refine (mkLin (cos (a * PI / 12)) (- sin (a * PI / 12)) (sin (a * PI / 12)) (cos (a * PI / 12)) _ _ _);
    pose proof (sin2_cos2 (a * PI / 12)) as H; unfold Rsqr in H; lra.
Defined.
Definition swap : lin.
Proof. refine (mkLin 1 0 0 (-1) _ _ _); lra. Defined.

Lemma point_turn a d m : point d (m + a) = app (turn a) (point d m).
Proof.
  unfold point, app. cbn [la lb lc ld turn fst snd].
  replace ((m + a) * PI / 12) with (m * PI / 12 + a * PI / 12) by lra. rewrite cos_plus, sin_plus. f_equal; ring.
Qed.
Lemma centre_turn a rc rc' : turned a rc rc' -> centre rc' = app (turn a) (centre rc).
Proof.
  intros [H1 H2 H3 _]. unfold centre, app. cbn [la lb lc ld turn fst snd]. rewrite H2, H3.
  replace ((phic rc + 15 * a) * PI / 180) with (phic rc * PI / 180 + a * PI / 12) by lra. rewrite cos_plus, sin_plus. f_equal; ring.
Qed.
Lemma point_swap d m : point d (- m) = app swap (point d m).
Proof.
  unfold point, app. cbn [la lb lc ld swap fst snd].
  replace (- m * PI / 12) with (- (m * PI / 12)) by lra. rewrite cos_neg, sin_neg. f_equal; ring.
Qed.
Lemma centre_swap rc rc' : swapped rc rc' -> centre rc' = app swap (centre rc).
Proof.
  intros [H1 H2 H3 _]. unfold centre, app. cbn [la lb lc ld swap fst snd]. rewrite H2, H3.
  replace (- phic rc * PI / 180) with (- (phic rc * PI / 180)) by lra. rewrite cos_neg, sin_neg. f_equal; ring.
Qed.

Section Isometry.
Context (f : lin) (g : R -> R) (rc rc' : rec).
Context (Pg : forall d m, point d (g m) = app f (point d m)).
Context (Pc : centre rc' = app f (centre rc)) (Pr : rr rc' = rr rc).
Context (Pf : forall m, rfun rc' (Some (g m)) = rfun rc (Some m)).

Lemma normal_pt_iso h bl lat mlt c : rfun rc (Some mlt) = Some c -> rr rc + c <> 0 -> 90 - Rabs bl <> 0 ->
  exists ol om om', normal_pt h bl rc (Some lat) (Some mlt) = Ok (Some ol, Some om) /\
    normal_pt h bl rc' (Some lat) (Some (g mlt)) = Ok (Some ol, Some om') /\
    0 <= om < 24 /\ 0 <= om' < 24 /\
    (point (colat h lat) mlt <> centre rc -> shifted 24 (g om) om').
Proof.
  intros Hf Hr Hb.
  destruct (normal_pt_spec h bl rc lat mlt c Hf Hr) as [m [E [B Q]]].
  destruct (normal_pt_spec h bl rc' lat (g mlt) c) as [m' [E' [B' Q']]]; [now rewrite Pf|now rewrite Pr|].
  cbv zeta in *. rewrite Pr, Pg, Pc in *. rewrite app_dist in *.
  set (P := point (colat h lat) mlt) in *. set (k := (90 - Rabs bl) / (rr rc + c)) in *.
  eexists _, m, m'. split; [exact E|]. split; [exact E'|]. split; [exact B|]. split; [exact B'|].
  intros N. set (rho := dist P (centre rc) * Rabs k) in *.
  assert (D0 : 0 < rho).
  { apply Rmult_lt_0_compat.
    - destruct (sqrt_pos ((fst P - fst (centre rc)) ^ 2 + (snd P - snd (centre rc)) ^ 2)) as [L|L]; [exact L|].
      exfalso. apply N. apply dist_zero. unfold dist. now rewrite <- L.
    - apply Rabs_pos_lt. unfold k, Rdiv. apply Rmult_integral_contrapositive. split; [exact Hb|]. now apply Rinv_neq_0_compat. }
  assert (W : point rho (g m) = point rho m').
  { rewrite Pg, <- Q, <- Q'. unfold app. cbn [fst snd]. f_equal; ring. }
  destruct (point_inj rho (g m) rho m' D0 (Rlt_le _ _ D0) W) as [_ S]. exact S.
Qed.

Lemma revert_pt_iso h bl olat omlt c : colat h bl <> 0 ->
  exists al am am', revert_pt h bl rc (Some olat) (Some omlt) (Some c) = Ok (Some al, Some am) /\
    revert_pt h bl rc' (Some olat) (Some (g omlt)) (Some c) = Ok (Some al, Some am') /\
    0 <= am < 24 /\ 0 <= am' < 24 /\ (h = 1%Z \/ h = (-1)%Z -> IZR h * al <> 90 -> shifted 24 (g am) am').
Proof.
  intros Hb.
  destruct (revert_pt_spec h bl rc olat omlt c Hb) as [m [E [B Q]]].
  destruct (revert_pt_spec h bl rc' olat (g omlt) c Hb) as [m' [E' [B' Q']]].
  cbv zeta in *. rewrite Pr, Pg, Pc in *.
  set (N := point (colat h olat) omlt) in *. set (s := (rr rc + c) / colat h bl) in *.
  set (P := (fst N * s + fst (centre rc), snd N * s + snd (centre rc))) in *.
  assert (EQ : (fst (app f N) * s + fst (app f (centre rc)), snd (app f N) * s + snd (app f (centre rc))) = app f P).
  { unfold app, P. cbn [fst snd]. f_equal; ring. }
  rewrite EQ, app_norm in *.
  eexists _, m, m'. split; [exact E|]. split; [exact E'|]. split; [exact B|]. split; [exact B'|].
  set (rho := sqrt (fst P ^ 2 + snd P ^ 2)) in *. intros Hh Ne.
  assert (D0 : 0 < rho).
  { destruct (sqrt_pos (fst P ^ 2 + snd P ^ 2)) as [L|L]; [exact L|]. exfalso. apply Ne. fold rho in L. rewrite <- L.
    rewrite <- Rmult_assoc, (h_sq h Hh). lra. }
  assert (W : point rho (g m) = point rho m') by (now rewrite Pg, <- Q, <- Q').
  destruct (point_inj rho (g m) rho m' D0 (Rlt_le _ _ D0) W) as [_ S]. exact S.
Qed.

Lemma meets_iso m s rho : meets rc' (g m) s rho <-> meets rc m s rho.
Proof. unfold meets. now rewrite Pg, Pc, app_dist. Qed.

Lemma boundary_pt_iso h m : h = 1%Z \/ h = (-1)%Z -> boundary_pt h rc' (Some (g m)) = boundary_pt h rc (Some m).
Proof.
  intros Hh. pose proof (boundary_pt_spec h rc m Hh) as A. pose proof (boundary_pt_spec h rc' (g m) Hh) as B.
  rewrite Pf, Pr in B. destruct (rfun rc (Some m)) as [c|]; [|congruence].
  destruct A as [[x [Ex [Mx Ux]]]|[Ex Nx]], B as [[y [Ey [My Uy]]]|[Ey Ny]].
  - apply meets_iso in My. pose proof (Ux _ My). pose proof (Uy _ (proj2 (meets_iso m _ _) Mx)).
    assert (colat h x = colat h y) by lra. assert (x = y) as ->; [|congruence].
    rewrite <- (lat_of_colat h x Hh), <- (lat_of_colat h y Hh). congruence.
  - exfalso. apply (Ny (colat h x)). now apply meets_iso.
  - exfalso. apply (Nx (colat h y)). now apply meets_iso.
  - congruence.
Qed.
End Isometry.

Lemma dual_calc_r_mirror d lats amlt rcorr ow :
  dual_calc_r (mirror_dual d) (opps lats) amlt rcorr ow =
  (mirror_dual (fst (dual_calc_r d lats amlt rcorr ow)), snd (dual_calc_r d lats amlt rcorr ow)).
Proof.
  unfold dual_calc_r. cbn [d_rec d_n d_oi mirror_dual]. destruct (_ || _)%Z.
  - cbn [fst snd blat d_o mirror_dual mirror]. unfold opps. now rewrite !map_map, Rabs_Ropp.
  - cbn [d_o mirror_dual mirror recs].
    destruct (k <- getE (d_oi d) (d_rec d);; rc <- getE (recs (d_o d)) k;; Ok (rr rc)) as [r|e]; [|reflexivity].
    rewrite ow_mirror. cbv zeta.
    pose (use := fun eb ob (_ : list fl) => Ok (map fst (map (fun p : fl * (fl * fl) * fl => radii_pt (blat (d_o d)) (blat (d_e d))
                                       (fmap (fun c => r + c) (snd p)) (fst p)) (combine (combine lats (combine ob eb)) rcorr)),
        map snd (map (fun p : fl * (fl * fl) * fl => radii_pt (blat (d_o d)) (blat (d_e d))
                                       (fmap (fun c => r + c) (snd p)) (fst p)) (combine (combine lats (combine ob eb)) rcorr)))).
    rewrite (with_boundaries_mirror d amlt false _ use _ (fun x => x)).
    { fold use. destruct (snd _); reflexivity. }
    intros eb ob ms. unfold use. cbn [and_then blat mirror d_e mirror_dual].
    assert (CO : combine (combine (opps lats) (combine (opps ob) (opps eb))) rcorr =
       map (fun p : fl * (fl * fl) * fl => let '((l, (o, e)), c) := p in ((opp l, (opp o, opp e)), c))
           (combine (combine lats (combine ob eb)) rcorr)).
    { clear. revert ob eb rcorr. induction lats as [|x l IH]; intros [|o ob] [|e eb] [|c rc]; try reflexivity.
      cbn. f_equal. apply IH. }
    rewrite CO, !map_map.
    assert (X : forall p : fl * (fl * fl) * fl,
      radii_pt (- blat (d_o d)) (- blat (d_e d)) (fmap (fun c => r + c) (snd (let '((l, (o, e)), c) := p in ((opp l, (opp o, opp e)), c))))
        (fst (let '((l, (o, e)), c) := p in ((opp l, (opp o, opp e)), c))) =
      radii_pt (blat (d_o d)) (blat (d_e d)) (fmap (fun c => r + c) (snd p)) (fst p)).
    { intros [[l [o e]] c]. unfold radii_pt. cbn [fst snd]. rewrite !some_opp, !abs_lt_opp, !abs_ge_opp, fsub_opp, !Rabs_Ropp.
      replace (- blat (d_o d) - - blat (d_e d)) with (- (blat (d_o d) - blat (d_e d))) by ring. rewrite Rabs_Ropp.
      assert (A : forall v, fmap Rabs (opp v) = fmap Rabs v) by (intros [v|]; cbn; [now rewrite Rabs_Ropp|reflexivity]).
      now rewrite !A. }
    do 2 f_equal; apply map_ext; intros p; now rewrite X.
Qed.
