(** C68, C69: satellite tracks. *)
From Coq Require Import Reals ZArith List Bool Lia Lra.
From Verif Require Import PyBase RangeModel RangeSpec CoordModel CoordSpec CoordProofs LoadProofs TrackModel TrackSpec TrackProofs TrackProofs2.
Import ListNotations.
Open Scope R_scope.

Lemma dist_to_pole x y : dist (x, y) (0, 0) = sqrt (x ^ 2 + y ^ 2).
Proof. unfold dist. cbn [fst snd]. rewrite !Rminus_0_r. reflexivity. Qed.
Lemma request_ok del_x del_y past h : valid_request del_x del_y past h -> refused h del_x del_y past = false.
Proof.
  intros (DX & DY & DP & H). unfold refused.
  destruct (Rlt_dec del_x 0); [lra|]. destruct (Rlt_dec del_y 0); [lra|]. destruct (Rlt_dec past 0); [lra|]. destruct H as [-> | ->]; reflexivity.
Qed.
Lemma request_bad del_x del_y past h : ~ valid_request del_x del_y past h -> refused h del_x del_y past = true.
Proof.
  intros N. unfold refused. destruct (Rlt_dec del_x 0); [reflexivity|]. destruct (Rlt_dec del_y 0); [reflexivity|]. destruct (Rlt_dec past 0); [reflexivity|]. cbn [orb].
  destruct ((h =? 1)%Z || (h =? -1)%Z) eqn:E; [|reflexivity]. exfalso. apply N. unfold valid_request. repeat split; try lra.
  apply orb_true_iff in E. rewrite !Z.eqb_eq in E. exact E.
Qed.
Lemma accept_nan x1 y1 x2 y2 h dx dy past pt p : (fst pt = None \/ snd pt = None) -> track_xy h (fst pt) (snd pt) = Ok p -> accept x1 y1 x2 y2 dx dy past (fst pt) p = false.
Proof.
  intros N E. destruct (xy_ok h (fst pt) (snd pt)) as (q & E' & Q). rewrite E in E'. injection E' as <-. destruct pt as [la mt]. cbn [fst snd] in *.
  assert (P : p = (None, None)). { destruct N as [-> | ->]; [exact Q|]. destruct la; exact Q. } subst p. reflexivity.
Qed.
Lemma Rabs_side h lat : (h = 1 \/ h = -1)%Z -> 0 <= IZR h * lat -> Rabs lat = IZR h * lat.
Proof. intros [-> | ->] L; [rewrite Rabs_pos_eq; lra|rewrite Rabs_left1; lra]. Qed.

Section S.
Context (A B : R * R) (del_x del_y past : R) (h : Z).
Notation track := (satellite_track (fst A) (snd A) (fst B) (snd B) h del_x del_y past).
(** The latitude is in the hemisphere of the request (or missing). *)
Definition this_side (lat : fl) : Prop := match lat with Some l => 0 <= IZR h * l | None => True end.

(** C68.  For points of the hemisphere, given as 1-D arrays: each point is accepted exactly
    if it is between the two lines and not too far equatorward of the nearer crossing. *)
Theorem C68_points_on_track_partial pts : valid_request del_x del_y past h -> fst A <> fst B -> Forall (fun pt => this_side (fst pt)) pts ->
  exists good, track pts = Ok good /\
    Forall2 (fun pt g => g = true <-> exists lat mlt, pt = (Some lat, Some mlt) /\ on_track A B del_x del_y past h lat mlt) pts good.
Proof.
  intros V NX S. destruct (track_each (fst A) (snd A) (fst B) (snd B) h del_x del_y past pts V NX) as (good & E & F). exists good. split; [exact E|]. clear E.
  induction F as [|pt g pts good (p & E & ->) F IH]; constructor; [|apply IH; inversion S; assumption]. clear IH. inversion S as [|? ? S1 _]; subst.
  destruct pt as [[lat|] [mlt|]]; [|rewrite (accept_nan _ _ _ _ h) by (auto; exact E); split; [discriminate|intros (? & ? & X & _); discriminate X] ..].
  assert (H : (h = 1 \/ h = -1)%Z) by apply V. cbn [fst snd this_side] in *.
  rewrite (accept_spec (fst A) (snd A) (fst B) (snd B) h del_x del_y past lat mlt p NX H E). rewrite <- !surjective_pairing.
  assert (RS : Rabs lat = IZR h * lat) by (apply Rabs_side; assumption).
  assert (BD : forall C : R * R, 90 - sqrt (fst C ^ 2 + snd C ^ 2) - past <= Rabs lat <-> colat h lat <= dist C (0, 0) + past).
  { intros [x y]. cbn [fst snd]. rewrite dist_to_pole, RS. unfold colat. split; lra. }
  unfold bound1, bound2. rewrite !BD. split.
  - intros (X & Y & W). exists lat, mlt. split; [reflexivity|]. split; [exact X|]. split; assumption.
  - intros (l & m & X & T). injection X as <- <-. destruct T as (T1 & T2 & T3). split; [exact T1|split; assumption].
Qed.
Theorem C68_bad_request pts : ~ valid_request del_x del_y past h -> track pts = Err ValueError.
Proof. intros N. unfold satellite_track. rewrite (request_bad _ _ _ _ N). reflexivity. Qed.
Theorem C68_vertical_track pts : valid_request del_x del_y past h -> fst A = fst B -> track pts = Err ZeroDivisionError.
Proof. intros V E. unfold satellite_track. rewrite (request_ok _ _ _ _ V). destruct (Req_EM_T (fst A - fst B) 0); [reflexivity|lra]. Qed.
(** A single point given as a number is never accepted: between the lines, the call raises. *)
Theorem C68_number_never_accepted lat mlt : valid_request del_x del_y past h -> fst A <> fst B ->
  (between_lines A B del_x del_y (place h lat mlt) -> track0 (fst A) (snd A) (fst B) (snd B) h del_x del_y past (Some lat, Some mlt) = Err IndexError) /\
  (~ between_lines A B del_x del_y (place h lat mlt) -> track0 (fst A) (snd A) (fst B) (snd B) h del_x del_y past (Some lat, Some mlt) = Ok false).
Proof.
  intros V NX. unfold track0. rewrite (request_ok _ _ _ _ V). destruct (Req_EM_T (fst A - fst B) 0); [lra|]. cbn [fst snd].
  destruct (xy_ok h (Some lat) (Some mlt)) as (p & -> & ->). cbn [bind].
  pose proof (band_spec (fst A) (snd A) (fst B) (snd B) del_x del_y (place h lat mlt) NX) as S. rewrite <- !surjective_pairing in S. rewrite <- S.
  destruct (in_band _ _ _ _ _ _ _); split; intros N; try reflexivity; exfalso; try discriminate N. apply N. reflexivity.
Qed.

(** In a 2-D array a point is accepted exactly if it and every other point of its row
    that lies between the lines are on the track. *)
Definition on_track_pt (pt : fl * fl) : Prop := exists lat mlt, pt = (Some lat, Some mlt) /\ on_track A B del_x del_y past h lat mlt.
Definition between_pt (pt : fl * fl) : Prop := exists lat mlt, pt = (Some lat, Some mlt) /\ between_lines A B del_x del_y (place h lat mlt).
Theorem C68_grid_rows rows : valid_request del_x del_y past h -> fst A <> fst B -> Forall (Forall (fun pt => this_side (fst pt))) rows ->
  exists good, track2 (fst A) (snd A) (fst B) (snd B) h del_x del_y past rows = Ok good /\
    Forall2 (fun row gs => Forall2 (fun pt g => g = true <-> on_track_pt pt /\ (forall pt', In pt' row -> between_pt pt' -> on_track_pt pt')) row gs) rows good.
Proof.
  intros V NX S. destruct (track2_rows (fst A) (snd A) (fst B) (snd B) h del_x del_y past rows V NX) as (good & E & F). exists good. split; [exact E|]. clear E.
  induction F as [|row g rows good (ps & FR & ->) F IH]; constructor; [|apply IH; inversion S; assumption]. clear IH F good. inversion S as [|? ? S1 _]; subst. clear S.
  set (xy := fun pt p => track_xy h (fst pt) (snd pt) = Ok p) in *.
  assert (ONE : forall pt p, this_side (fst pt) -> xy pt p ->
    (in_band (fst A) (snd A) (fst B) (snd B) del_x del_y p = true <-> between_pt pt) /\ (accept (fst A) (snd A) (fst B) (snd B) del_x del_y past (fst pt) p = true <-> on_track_pt pt)).
  { intros pt p SD XY. unfold xy in XY. split.
    - destruct (xy_ok h (fst pt) (snd pt)) as (q & Q & W). rewrite XY in Q. injection Q as <-. destruct pt as [[lat|] [mlt|]]; cbn [fst snd] in W; subst p.
      + rewrite (band_spec _ _ _ _ del_x del_y (place h lat mlt) NX), <- !surjective_pairing. split; [intros X; exists lat, mlt; split; [reflexivity|exact X]|intros (l & m & X & Y); injection X as <- <-; exact Y].
      + split; [discriminate|intros (l & m & X & _); discriminate X].
      + split; [discriminate|intros (l & m & X & _); discriminate X].
      + split; [discriminate|intros (l & m & X & _); discriminate X].
    - destruct (C68_points_on_track_partial [pt] V NX) as (g1 & E1 & F1); [apply Forall_cons; [exact SD|apply Forall_nil]|].
      destruct (track_each (fst A) (snd A) (fst B) (snd B) h del_x del_y past [pt] V NX) as (g2 & E2 & F2). rewrite E1 in E2. injection E2 as <-.
      inversion F1 as [|? b1 ? r1 G1 F1']; subst g1. inversion F2 as [|? b2 ? r2 (p2 & X2 & G2) F2']; subst. rewrite XY in X2. injection X2 as <-. exact G1. }
  assert (RO : row_ok (fst A) (snd A) (fst B) (snd B) del_x del_y past row ps = true <-> (forall pt', In pt' row -> between_pt pt' -> on_track_pt pt')).
  { unfold row_ok. clear V NX. induction FR as [|pt p row ps XY FR IH]; [split; [intros _ pt' []|reflexivity]|]. inversion S1 as [|? ? SD S2]; subst. specialize (IH S2).
    destruct (ONE pt p SD XY) as [O1 O2]. cbn [combine forallb fst snd]. rewrite andb_true_iff, IH, orb_true_iff, negb_true_iff. split.
    - intros [Q1 Q2] pt' [<- | I] Bt; [|exact (Q2 pt' I Bt)]. apply O1 in Bt. destruct Q1 as [Q1|Q1]; [rewrite Bt in Q1; discriminate Q1|]. apply O2. exact Q1.
    - intros Q. split; [|intros pt' I; apply Q; right; exact I]. destruct (in_band _ _ _ _ _ _ p) eqn:IB; [right|left; reflexivity]. apply O2. apply Q; [left; reflexivity|]. apply O1. reflexivity. }
  assert (GEN : forall whole ro, (ro = true <-> (forall pt', In pt' whole -> between_pt pt' -> on_track_pt pt')) ->
    forall sub qs, Forall2 xy sub qs -> Forall (fun pt => this_side (fst pt)) sub -> Forall (fun pt => In pt whole) sub ->
    Forall2 (fun pt g => g = true <-> on_track_pt pt /\ (forall pt', In pt' whole -> between_pt pt' -> on_track_pt pt')) sub
      (map (fun p => in_band (fst A) (snd A) (fst B) (snd B) del_x del_y p && ro) qs)).
  { intros whole ro RW sub qs FS. induction FS as [|pt p sub qs XY FS IH]; intros T1 SUB; constructor; inversion T1 as [|? ? SD T2]; inversion SUB as [|? ? IN SUB']; subst; [|apply IH; assumption].
    destruct (ONE pt p SD XY) as [O1 O2]. rewrite andb_true_iff, RW, O1. split.
    - intros [X Y]. split; [apply Y; assumption|exact Y].
    - intros [X Y]. split; [|exact Y]. destruct X as (l & m & -> & [X _]). exists l, m. split; [reflexivity|exact X]. }
  apply (GEN row _ RO row ps FR S1). apply Forall_forall. auto.
Qed.

(** C69.  The crossings are accepted when the line does not rise too steeply. *)
Definition rise : R := (snd B - snd A) / (fst B - fst A).
Theorem C69_crossings_on_track_partial lat1 mlt1 lat2 mlt2 : valid_request del_x del_y past h -> fst A <> fst B ->
  this_side (Some lat1) -> this_side (Some lat2) -> lat1 <= 90 /\ -90 <= lat1 -> lat2 <= 90 /\ -90 <= lat2 ->
  A = place h lat1 mlt1 -> B = place h lat2 mlt2 -> rise * del_x <= del_y ->
  track [(Some lat1, Some mlt1); (Some lat2, Some mlt2)] = Ok [true; true].
Proof.
  intros V NX S1 S2 L1 L2 EA EB SL. pose proof V as (DX & DY & DP & H).
  destruct (C68_points_on_track_partial [(Some lat1, Some mlt1); (Some lat2, Some mlt2)] V NX) as (good & E & F); [apply Forall_cons; [exact S1|apply Forall_cons; [exact S2|apply Forall_nil]]|].
  rewrite E. f_equal. inversion F as [|? g1 ? r1 G1 F1]; subst good. inversion F1 as [|? g2 ? r2 G2 F2]; subst r1. inversion F2; subst r2. clear E F F1 F2.
  assert (PD : forall lat mlt, this_side (Some lat) -> lat <= 90 /\ -90 <= lat -> dist (place h lat mlt) (0, 0) = colat h lat).
  { intros lat mlt SD L. unfold place, point. rewrite dist_to_pole. cbn [this_side] in SD. set (a := (mlt - 6) * PI / 12).
    replace ((colat h lat * cos a) ^ 2 + (colat h lat * sin a) ^ 2) with (colat h lat ^ 2 * (Rsqr (sin a) + Rsqr (cos a))) by (unfold Rsqr; ring).
    rewrite sin2_cos2, Rmult_1_r. apply sqrt_pow2. unfold colat. destruct H as [-> | ->]; lra. }
  assert (RX : forall zz, zz * rise * (fst B - fst A) = zz * (snd B - snd A)) by (intros zz; unfold rise; field; lra).
  assert (BW : forall p, p = A \/ p = B -> between_lines A B del_x del_y p).
  { intros p P. assert (ON : (snd p - snd A) * (fst B - fst A) = (snd B - snd A) * (fst p - fst A)) by (destruct P as [-> | ->]; ring).
    split; [exists (fst p + del_x, snd p + del_x * rise)|exists (fst p - del_x, snd p - del_x * rise)]; unfold on_line; cbn [fst snd]; (split; [|split; [ring|lra]]).
    - replace (snd p + del_x * rise - snd A) with ((snd p - snd A) + del_x * rise) by ring. rewrite Rmult_plus_distr_r, ON, RX. ring.
    - replace (snd p - del_x * rise - snd A) with ((snd p - snd A) - del_x * rise) by ring. rewrite Rmult_minus_distr_r, ON, RX. ring. }
  assert (D0 : forall p, dist p p = 0). { intros [px py]. unfold dist. cbn [fst snd]. rewrite !Rminus_diag_eq by reflexivity. rewrite pow_i by lia. rewrite Rplus_0_r. apply sqrt_0. }
  assert (DN : forall p q, 0 <= dist p q) by (intros; apply sqrt_pos).
  assert (NE : forall p q, dist p q = 0 -> fst p = fst q).
  { intros p q Q. unfold dist in Q. apply sqrt_eq_0 in Q; [|apply Rplus_le_le_0_compat; apply pow2_ge_0]. apply Rminus_diag_uniq. apply (Rplus_sqr_eq_0_l _ (snd p - snd q)). rewrite !Rsqr_pow2. exact Q. }
  f_equal; [apply G1|f_equal; apply G2].
  - exists lat1, mlt1. split; [reflexivity|]. split; [rewrite <- EA; apply BW; left; reflexivity|]. unfold poleward_enough. cbv zeta. rewrite <- EA. split; intros Q.
    + rewrite EA, (PD lat1 mlt1 S1 L1). lra.
    + exfalso. rewrite D0 in Q. specialize (DN B A). lra.
  - exists lat2, mlt2. split; [reflexivity|]. split; [rewrite <- EB; apply BW; right; reflexivity|]. unfold poleward_enough. cbv zeta. rewrite <- EB. split; intros Q.
    + exfalso. rewrite D0 in Q. apply NX. apply NE. specialize (DN A B). lra.
    + rewrite EB, (PD lat2 mlt2 S2 L2). lra.
Qed.
(** Otherwise nothing at all is accepted. *)
Theorem C69_steep_track_rejects_all pts : valid_request del_x del_y past h -> fst A <> fst B -> del_y < rise * del_x ->
  track pts = Ok (repeat false (length pts)).
Proof.
  intros V NX ST. destruct (track_each (fst A) (snd A) (fst B) (snd B) h del_x del_y past pts V NX) as (good & E & F). rewrite E. f_equal. clear E.
  induction F as [|pt g pts good (p & E & ->) F IH]; [reflexivity|]. cbn [length repeat]. f_equal; [|exact IH].
  destruct pt as [[lat|] [mlt|]]; [|apply (accept_nan _ _ _ _ h); auto ..]. cbn [fst snd] in E.
  apply not_true_is_false. rewrite (accept_spec _ _ _ _ h del_x del_y past lat mlt p NX) by (try exact E; apply V). rewrite <- !surjective_pairing.
  intros ((([a b] & Q1 & Q2 & Q3) & ([c d] & Q4 & Q5 & Q6)) & _). unfold on_line in *. cbn [fst snd] in *.
  assert (LN : forall x y, (y - snd A) * (fst B - fst A) = (snd B - snd A) * (x - fst A) -> y = snd A + rise * (x - fst A)).
  { intros x y Q. apply (Rmult_eq_reg_r (fst B - fst A)); [|lra]. unfold rise. field_simplify; [|lra]. lra. }
  apply LN in Q1, Q4. subst b d. replace a with (fst (place h lat mlt) + del_x) in Q3 by lra. replace c with (fst (place h lat mlt) - del_x) in Q6 by lra. lra.
Qed.
End S.

(** ** Concrete cases. *)
Lemma place_dawn lat : place 1 lat 6 = (90 - lat, 0).
Proof. unfold place, point, colat. replace ((6 - 6) * PI / 12) with 0 by lra. rewrite cos_0, sin_0. f_equal; lra. Qed.
Lemma place_dusk lat : place 1 lat 18 = (lat - 90, 0).
Proof. unfold place, point, colat. replace ((18 - 6) * PI / 12) with PI by lra. rewrite cos_PI, sin_PI. f_equal; lra. Qed.
Lemma place_noon lat : place 1 lat 12 = (0, 90 - lat).
Proof. unfold place, point, colat. replace ((12 - 6) * PI / 12) with (PI / 2) by lra. rewrite cos_PI2, sin_PI2. f_equal; lra. Qed.
Definition dawn : R * R := (20, 0).
Definition dusk : R * R := (-20, 0).
Lemma dd_request : valid_request 1 1 5 1. Proof. unfold valid_request. repeat split; try lra. left. reflexivity. Qed.
Lemma dd_band lat mlt : between_lines dawn dusk 1 1 (place 1 lat mlt) <-> -1 <= snd (place 1 lat mlt) <= 1.
Proof.
  unfold between_lines, on_line, dawn, dusk. cbn [fst snd]. destruct (place 1 lat mlt) as [x y]. cbn [fst snd]. split.
  - intros [([a b] & Q1 & Q2 & Q3) ([c d] & Q4 & Q5 & Q6)]. cbn [fst snd] in *. lra.
  - intros [L U]. split; [exists (x + 1, 0)|exists (x - 1, 0)]; cbn [fst snd]; lra.
Qed.
Lemma dd_dist x : dist dawn (x, 0) = Rabs (20 - x) /\ dist dusk (x, 0) = Rabs (20 + x) /\ dist dawn (0, 0) = 20 /\ dist dusk (0, 0) = 20.
Proof.
  assert (Q : forall a b, dist (a, 0) (b, 0) = Rabs (a - b)). { intros a b. unfold dist. cbn [fst snd]. replace ((a - b) ^ 2 + (0 - 0) ^ 2) with (Rsqr (a - b)) by (unfold Rsqr; ring). apply sqrt_Rsqr_abs. }
  unfold dawn, dusk. rewrite !Q. split; [reflexivity|]. split; [|split]; [rewrite <- Rabs_Ropp; f_equal; lra|rewrite Rabs_pos_eq; lra|rewrite Rabs_left; lra].
Qed.
Lemma dd_on lat : lat < 90 -> 65 <= lat -> on_track dawn dusk 1 1 5 1 lat 6.
Proof.
  intros U L. split; [apply dd_band; rewrite place_dawn; cbn [snd]; lra|]. unfold poleward_enough. rewrite place_dawn. destruct (dd_dist (90 - lat)) as (D1 & D2 & D3 & D4).
  cbv zeta. rewrite D1, D2, D3, D4. unfold colat. split; intros _; lra.
Qed.
Lemma dd_off lat : lat < 65 -> ~ on_track dawn dusk 1 1 5 1 lat 6.
Proof.
  intros L [_ [T _]]. rewrite place_dawn in T. destruct (dd_dist (90 - lat)) as (D1 & D2 & D3 & D4). rewrite D1, D2, D3 in T. unfold colat in T.
  enough (90 - 1 * lat <= 20 + 5) by lra. apply T. rewrite (Rabs_pos_eq (20 + (90 - lat))) by lra. unfold Rabs. destruct (Rcase_abs _); lra.
Qed.
(** A pass from dawn to dusk: two points at dawn, one at noon and a missing one. *)
Example C68_case : satellite_track 20 0 (-20) 0 1 1 1 5 [(Some 75, Some 6); (Some 60, Some 6); (Some 80, Some 12); (Some 75, None)] = Ok [true; false; false; false].
Proof.
  destruct (C68_points_on_track_partial dawn dusk 1 1 5 1 [(Some 75, Some 6); (Some 60, Some 6); (Some 80, Some 12); (Some 75, None)] dd_request) as (good & E & F).
  - cbn. lra.
  - repeat constructor; cbn; lra.
  - change (fst dawn) with 20 in E. change (snd dawn) with 0 in E. change (fst dusk) with (-20) in E. change (snd dusk) with 0 in E. rewrite E. f_equal.
    inversion F as [|? g1 ? r1 G1 F1]; subst good. inversion F1 as [|? g2 ? r2 G2 F2]; subst r1. inversion F2 as [|? g3 ? r3 G3 F3]; subst r2. inversion F3 as [|? g4 ? r4 G4 F4]; subst r3. inversion F4; subst r4.
    f_equal; [|f_equal; [|f_equal; [|f_equal]]].
    + apply G1. exists 75, 6. split; [reflexivity|]. apply dd_on; lra.
    + apply not_true_is_false. intros T. apply G2 in T. destruct T as (l9 & m9 & X & T). injection X as <- <-. revert T. apply dd_off. lra.
    + apply not_true_is_false. intros T. apply G3 in T. destruct T as (l9 & m9 & X & [T _]). injection X as <- <-. apply dd_band in T. rewrite place_noon in T. cbn [snd] in T. lra.
    + apply not_true_is_false. intros T. apply G4 in T. destruct T as (l9 & m9 & X & _). discriminate X.
Qed.
(** Points of the other hemisphere are compared by the size of their latitude. *)
Theorem C68_other_hemisphere_refuted :
  exists lat mlt, satellite_track 20 0 (-20) 0 1 1 1 5 [(Some lat, Some mlt)] = Ok [true] /\ ~ on_track dawn dusk 1 1 5 1 lat mlt.
Proof.
  exists (-80), 6. split; [|apply dd_off; lra].
  destruct (track_each 20 0 (-20) 0 1 1 1 5 [(Some (-80), Some 6)] dd_request) as (good & E & F); [lra|]. rewrite E. f_equal.
  inversion F as [|? g1 ? r1 (p & P & G1) F1]; subst good. inversion F1; subst r1. f_equal. subst g1. cbn [fst snd] in *.
  apply (accept_spec 20 0 (-20) 0 1 1 1 5 (-80) 6 p); [lra|left; reflexivity|exact P|]. split; [apply dd_band; rewrite place_dawn; cbn [snd]; lra|].
  unfold bound1, bound2. destruct (dd_dist 0) as (_ & _ & D3 & D4). rewrite <- !dist_to_pole. fold dawn dusk. rewrite D3, D4.
  rewrite Rabs_left by lra. lra.
Qed.
(** A number on the track is not accepted. *)
Theorem C68_number_refuted : on_track dawn dusk 1 1 5 1 75 6 /\ track0 20 0 (-20) 0 1 1 1 5 (Some 75, Some 6) = Err IndexError.
Proof.
  split; [apply dd_on; lra|]. apply (C68_number_never_accepted dawn dusk 1 1 5 1 75 6 dd_request); [cbn; lra|]. apply dd_band. rewrite place_dawn. cbn [snd]. lra.
Qed.
Lemma dd_xy lat mlt : track_xy 1 (Some lat) (Some mlt) = Ok (Some (fst (place 1 lat mlt)), Some (snd (place 1 lat mlt))).
Proof. destruct (xy_ok 1 (Some lat) (Some mlt)) as (p & E & ->). exact E. Qed.
(** In a 2-D array, one point too far equatorward takes its whole row with it. *)
Theorem C68_grid_refuted : on_track dawn dusk 1 1 5 1 75 6 /\
  track2 20 0 (-20) 0 1 1 1 5 [[(Some 75, Some 6); (Some 50, Some 6)]; [(Some 75, Some 6); (Some 80, Some 6)]] = Ok [[false; false]; [true; true]].
Proof.
  split; [apply dd_on; lra|]. unfold track2. rewrite (request_ok _ _ _ _ dd_request). destruct (Req_EM_T (20 - -20) 0); [lra|].
  cbn [points2 points]. rewrite !dd_xy, !place_dawn. cbn [bind fst snd map].
  assert (BD : forall x, in_band 20 0 (-20) 0 1 1 (Some x, Some 0) = true).
  { intros x. unfold in_band, low_int, high_int, slope. cbn [fst snd fmap option_map fle].
    replace ((0 - 0) / (20 - -20)) with 0 by (unfold Rdiv; rewrite Rminus_diag_eq by reflexivity; rewrite Rmult_0_l; reflexivity). destruct (Rle_dec _ 0); [|lra]. destruct (Rle_dec 0 _); [reflexivity|lra]. }
  assert (D1 : forall x, 0 <= x -> fle (dist1 20 0 (Some x, Some 0)) (dist2 (-20) 0 (Some x, Some 0)) = true /\ flt (dist2 (-20) 0 (Some x, Some 0)) (dist1 20 0 (Some x, Some 0)) = false).
  { intros x X. unfold dist1, dist2. cbn [fst snd fmap2 fle flt].
    assert (LE : sqrt ((20 - x) ^ 2 + (0 - 0) ^ 2) <= sqrt ((-20 - x) ^ 2 + (0 - 0) ^ 2)) by (apply sqrt_le_1_alt; nra).
    destruct (Rle_dec _ _); [|contradiction]. destruct (Rlt_dec _ _); [lra|]. split; reflexivity. }
  rewrite !BD. cbn [existsb orb map2]. unfold near1, near2.
  rewrite (proj1 (D1 (90 - 75) ltac:(lra))), (proj2 (D1 (90 - 75) ltac:(lra))), (proj1 (D1 (90 - 50) ltac:(lra))), (proj2 (D1 (90 - 50) ltac:(lra))), (proj1 (D1 (90 - 80) ltac:(lra))), (proj2 (D1 (90 - 80) ltac:(lra))). cbn [andb].
  unfold where2, too_low2. cbn [length seq map2 where_from map app concat filter nth fst snd fmap option_map flt].
  unfold bound1. rewrite <- dist_to_pole. fold dawn. rewrite (proj1 (proj2 (proj2 (dd_dist 0)))).
  rewrite !(Rabs_pos_eq) by lra.
  destruct (Rlt_dec 75 _); [lra|]. destruct (Rlt_dec 50 _); [|lra]. destruct (Rlt_dec 80 _); [lra|].
  reflexivity.
Qed.
Example C69_case : satellite_track 20 0 (-20) 0 1 1 1 5 [(Some 70, Some 6); (Some 70, Some 18)] = Ok [true; true].
Proof.
  apply (C69_crossings_on_track_partial dawn dusk 1 1 5 1 70 6 70 18 dd_request); cbn [this_side]; try lra; [cbn; lra| | |unfold rise, dawn, dusk; cbn [fst snd]; lra].
  - rewrite place_dawn. unfold dawn. f_equal; lra.
  - rewrite place_dusk. unfold dusk. f_equal; lra.
Qed.
(** With the default tolerances, crossings on a line rising by more than one degree per
    degree are not on their own track. *)
Theorem C69_steep_track_refuted : ~ (forall lat1 mlt1 lat2 mlt2, let A := place 1 lat1 mlt1 in let B := place 1 lat2 mlt2 in
  fst A <> fst B -> 0 <= lat1 <= 90 -> 0 <= lat2 <= 90 ->
  satellite_track (fst A) (snd A) (fst B) (snd B) 1 1 1 5 [(Some lat1, Some mlt1); (Some lat2, Some mlt2)] = Ok [true; true]).
Proof.
  intros C. specialize (C 70 12 80 18). cbv zeta in C. assert (NX : fst (place 1 70 12) <> fst (place 1 80 18)) by (rewrite place_noon, place_dusk; cbn [fst]; lra).
  rewrite (C69_steep_track_rejects_all (place 1 70 12) (place 1 80 18) 1 1 5 1 _ dd_request NX) in C.
  - specialize (C NX ltac:(lra) ltac:(lra)). discriminate C.
  - unfold rise. rewrite place_noon, place_dusk. cbn [fst snd]. lra.
Qed.

Print Assumptions C68_points_on_track_partial.
Print Assumptions C68_bad_request.
Print Assumptions C68_vertical_track.
Print Assumptions C68_number_never_accepted.
Print Assumptions C68_other_hemisphere_refuted.
Print Assumptions C68_number_refuted.
Print Assumptions C68_grid_rows.
Print Assumptions C68_grid_refuted.
Print Assumptions C69_crossings_on_track_partial.
Print Assumptions C69_steep_track_rejects_all.
Print Assumptions C69_steep_track_refuted.
