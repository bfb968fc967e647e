(** Satellite tracks: the loop over the points is a test of each point. *)
From Coq Require Import Reals ZArith List Bool Lia Lra.
From Verif Require Import PyBase RangeModel RangeSpec RangeProofs CoordModel CoordSpec CoordProofs LoadProofs TrackModel TrackSpec.
Import ListNotations.
Open Scope R_scope.

Lemma where_in l : forall n i, In i (where_from n l) <-> (n <= i)%nat /\ nth (i - n) l false = true.
Proof.
  induction l as [|b l IH]; intros n i; cbn [where_from].
  - split; [intros []|]. intros [_ H]. destruct (i - n)%nat; discriminate H.
  - rewrite in_app_iff, IH. split.
    + intros [H|[H1 H2]].
      * destruct b; [|destruct H]. destruct H as [<-|[]]. rewrite Nat.sub_diag. split; [lia|reflexivity].
      * split; [lia|]. replace (i - n)%nat with (S (i - S n)) by lia. exact H2.
    + intros [H1 H2]. destruct (Nat.eq_dec i n) as [->|N].
      * rewrite Nat.sub_diag in H2. cbn [nth] in H2. subst b. left. left. reflexivity.
      * right. split; [lia|]. replace (i - n)%nat with (S (i - S n)) in H2 by lia. exact H2.
Qed.
Lemma clear_nth j i (l : list bool) : nth i (clear false j l) false = (nth i l false && negb (Nat.eqb i j)).
Proof.
  revert i j. induction l as [|a l IH]; intros i j; cbn [clear]; [destruct i, j; reflexivity|].
  destruct j as [|j], i as [|i]; cbn [nth Nat.eqb negb]; rewrite ?andb_false_r, ?andb_true_r; try reflexivity. apply IH.
Qed.
Lemma clear_length {A} (no : A) j l : length (clear no j l) = length l.
Proof. revert j. induction l as [|a l IH]; intros [|j]; cbn [clear length]; try reflexivity. rewrite IH. reflexivity. Qed.
Lemma clears_nth js : forall l i, nth i (fold_left (fun g j => clear false j g) js l) false = (nth i l false && negb (existsb (Nat.eqb i) js)).
Proof.
  induction js as [|j js IH]; intros l i; cbn [fold_left existsb]; [rewrite andb_true_r; reflexivity|].
  rewrite IH, clear_nth, negb_orb, andb_assoc. reflexivity.
Qed.
Lemma clears_length {A} (no : A) js : forall l, length (fold_left (fun g j => clear no j g) js l) = length l.
Proof. induction js as [|j js IH]; intros l; [reflexivity|]. cbn [fold_left]. rewrite IH. apply clear_length. Qed.
Lemma map2_nth {A B C} (f : A -> B -> C) da db dc l m i : length l = length m -> f da db = dc -> nth i (map2 f l m) dc = f (nth i l da) (nth i m db).
Proof.
  intros L D. revert m i L. induction l as [|a l IH]; intros [|b m] i L; try discriminate L; [destruct i; symmetry; exact D|].
  destruct i as [|i]; [reflexivity|]. cbn [map2 nth]. apply IH. injection L as L. exact L.
Qed.

Section P.
Context (x1 y1 x2 y2 : R) (h : Z) (del_x del_y past : R).
Notation xy_of := (track_xy h).
Notation inb := (in_band x1 y1 x2 y2 del_x del_y).
(** The test of one point. *)
Definition accept (lat : fl) (p : fl * fl) : bool :=
  let g := inb p in
  g && negb (near1 x1 y1 x2 y2 g p && flt (fmap Rabs lat) (Some (bound1 x1 y1 past))) &&
  negb (near2 x1 y1 x2 y2 g p && flt (fmap Rabs lat) (Some (bound2 x2 y2 past))).
Lemma xy_ok lat mlt : exists p, xy_of lat mlt = Ok p /\
  match lat, mlt with Some l, Some m => p = (Some (fst (place h l m)), Some (snd (place h l m))) | _, _ => p = (None, None) end.
Proof.
  unfold track_xy. destruct mlt as [m|]; cbn [fmap option_map].
  - destruct (hr2rad_trig (m - 6)) as (t & E & C & S). unfold fmap. cbn [option_map]. rewrite E. cbn [bind]. eexists. split; [reflexivity|].
    destruct lat as [l|]; [|reflexivity]. cbn. rewrite C, S. reflexivity.
  - unfold fmap at 1. cbn [option_map]. rewrite hr2rad_none. cbn [bind]. eexists. split; [reflexivity|]. destruct lat; reflexivity.
Qed.
Lemma points_ok pts : exists ps, points h pts = Ok ps /\ Forall2 (fun pt p => xy_of (fst pt) (snd pt) = Ok p) pts ps.
Proof.
  induction pts as [|[la mt] pts (ps & E & F)]; [exists []; split; [reflexivity|constructor]|]. cbn [points].
  destruct (xy_ok la mt) as (p & Ep & _). rewrite Ep, E. cbn [bind]. exists (p :: ps). split; [reflexivity|]. constructor; assumption.
Qed.
Lemma low_in b lats l i : existsb (Nat.eqb i) (too_low b lats (where_from 0 l)) = nth i l false && flt (fmap Rabs (nth i lats None)) (Some b).
Proof.
  apply eq_true_iff_eq. rewrite existsb_exists, andb_true_iff. unfold too_low. split.
  - intros (j & I & E). apply Nat.eqb_eq in E. subst j. apply filter_In in I. destruct I as [I F]. apply where_in in I. destruct I as [_ I]. rewrite Nat.sub_0_r in I. split; assumption.
  - intros [H F]. exists i. split; [|apply Nat.eqb_refl]. apply filter_In. split; [|exact F]. apply where_in. rewrite Nat.sub_0_r. split; [lia|exact H].
Qed.
Lemma track_each pts : valid_request del_x del_y past h -> x1 <> x2 ->
  exists good, satellite_track x1 y1 x2 y2 h del_x del_y past pts = Ok good /\
    Forall2 (fun pt g => exists p, xy_of (fst pt) (snd pt) = Ok p /\ g = accept (fst pt) p) pts good.
Proof.
  intros (DX & DY & DP & H) NX. unfold satellite_track.
  assert (RF : refused h del_x del_y past = false).
  { unfold refused. destruct (Rlt_dec del_x 0); [lra|]. destruct (Rlt_dec del_y 0); [lra|]. destruct (Rlt_dec past 0); [lra|]. destruct H as [-> | ->]; reflexivity. }
  rewrite RF. destruct (Req_EM_T (x1 - x2) 0); [lra|]. destruct (points_ok pts) as (ps & -> & F). cbn [bind]. cbv zeta.
  set (good := map inb ps).
  assert (LG : length good = length ps) by (unfold good; apply map_length). pose proof (F2_length _ _ _ F) as LP.
  set (res := fold_left _ _ _).
  assert (N : forall i, nth i res false = match nth_error pts i, nth_error ps i with Some pt, Some p => accept (fst pt) p | _, _ => false end).
  { intros i. unfold res. rewrite !clears_nth, !low_in.
    rewrite (map2_nth (near1 x1 y1 x2 y2) false (None, None) false good ps i LG eq_refl), (map2_nth (near2 x1 y1 x2 y2) false (None, None) false good ps i LG eq_refl).
    destruct (nth_error pts i) as [pt|] eqn:E1; destruct (nth_error ps i) as [p|] eqn:E2.
    - assert (G : nth i good false = inb p). { unfold good. rewrite (nth_indep _ false (inb (None, None))) by (rewrite map_length; apply nth_error_Some; congruence). rewrite map_nth, (nth_error_nth _ _ _ E2). reflexivity. }
      rewrite G, (nth_error_nth _ _ _ E2). replace (nth i (map fst pts) None) with (fst pt); [reflexivity|].
      symmetry. apply nth_error_nth. rewrite nth_error_map, E1. reflexivity.
    - apply nth_error_None in E2. rewrite (nth_overflow good) by lia. reflexivity.
    - apply nth_error_None in E1. rewrite (nth_overflow good) by lia. reflexivity.
    - apply nth_error_None in E2. rewrite (nth_overflow good) by lia. reflexivity. }
  assert (LR : length res = length pts) by (unfold res; rewrite !clears_length; lia).
  assert (R0 : existsb (fun b => b) good = false -> good = res).
  { intros E. apply (nth_ext _ _ false false); [lia|]. intros i _. rewrite N. assert (Z : nth i good false = false).
    { destruct (nth i good false) eqn:Z; [|reflexivity]. exfalso. assert (X : existsb (fun b => b) good = true); [|congruence]. apply existsb_exists. exists true. split; [|reflexivity].
      rewrite <- Z. apply nth_In. destruct (Nat.lt_ge_cases i (length good)) as [L|L]; [exact L|]. rewrite nth_overflow in Z by exact L. discriminate Z. }
    rewrite Z. destruct (nth_error pts i) as [pt|] eqn:E1; [|reflexivity]. destruct (nth_error ps i) as [p|] eqn:E2; [|reflexivity].
    assert (G : nth i good false = inb p). { unfold good. rewrite (nth_indep _ false (inb (None, None))) by (rewrite map_length; apply nth_error_Some; congruence). rewrite map_nth, (nth_error_nth _ _ _ E2). reflexivity. }
    unfold accept. rewrite <- G, Z. reflexivity. }
  exists res. split.
  - destruct (existsb (fun b => b) good); [reflexivity|]. rewrite <- R0; reflexivity.
  - clearbody res. clear R0 RF good LG. clear - F N LR. revert res N LR. induction F as [|pt p pts ps E F IH]; intros [|g res] N LR; try discriminate LR; constructor.
    + exists p. split; [exact E|]. exact (N 0%nat).
    + apply IH; [|injection LR as LR; exact LR]. intros i. exact (N (S i)).
Qed.
(** The test is the specification. *)
Lemma band_spec p : x1 <> x2 -> inb (Some (fst p), Some (snd p)) = true <-> between_lines (x1, y1) (x2, y2) del_x del_y p.
Proof.
  intros NX. unfold in_band, between_lines, on_line. cbn [fst snd fmap option_map fle].
  assert (SL : slope x1 y1 x2 y2 * (x2 - x1) = y2 - y1) by (unfold slope; field; lra).
  set (s := slope x1 y1 x2 y2) in *. unfold low_int, high_int. fold s.
  assert (LN : forall a b, (b - y1) * (x2 - x1) = (y2 - y1) * (a - x1) <-> b = y1 + s * (a - x1)).
  { intros a b. rewrite <- SL. split; intros E; [|subst b; ring]. apply (Rmult_eq_reg_r (x2 - x1)); [|lra]. lra. }
  destruct (Rle_dec (s * fst p + (y1 - del_y - s * (x1 - del_x))) (snd p)) as [L|L]; destruct (Rle_dec (snd p) (s * fst p + (y1 + del_y - s * (x1 + del_x)))) as [U|U]; cbn [andb]; (split; [intros E; try discriminate E|]).
  - split; [exists (fst p + del_x, y1 + s * (fst p + del_x - x1))|exists (fst p - del_x, y1 + s * (fst p - del_x - x1))]; cbn [fst snd]; (split; [apply LN; reflexivity|]); (split; [ring|lra]).
  - intros _. reflexivity.
  - intros [_ ([a b] & Q1 & Q2 & Q3)]. cbn [fst snd] in *. apply LN in Q1. exfalso. apply U. rewrite <- Q2. rewrite Q1 in Q3. lra.
  - intros [([a b] & Q1 & Q2 & Q3) _]. cbn [fst snd] in *. apply LN in Q1. exfalso. apply L. rewrite <- Q2. rewrite Q1 in Q3. lra.
  - intros [([a b] & Q1 & Q2 & Q3) _]. cbn [fst snd] in *. apply LN in Q1. exfalso. apply L. rewrite <- Q2. rewrite Q1 in Q3. lra.
Qed.
Lemma accept_spec lat mlt p : x1 <> x2 -> (h = 1 \/ h = -1)%Z -> xy_of (Some lat) (Some mlt) = Ok p ->
  accept (Some lat) p = true <-> between_lines (x1, y1) (x2, y2) del_x del_y (place h lat mlt) /\
    (dist (x1, y1) (place h lat mlt) <= dist (x2, y2) (place h lat mlt) -> bound1 x1 y1 past <= Rabs lat) /\
    (dist (x2, y2) (place h lat mlt) < dist (x1, y1) (place h lat mlt) -> bound2 x2 y2 past <= Rabs lat).
Proof.
  intros NX H E. destruct (xy_ok (Some lat) (Some mlt)) as (p' & E' & EP). rewrite E in E'. injection E' as <-. subst p.
  set (q := place h lat mlt). unfold accept. cbv zeta. rewrite <- (band_spec q NX).
  destruct (inb (Some (fst q), Some (snd q))); [|cbn [andb]; split; [discriminate|intros [? _]; discriminate]].
  unfold near1, near2, dist1, dist2, dist. cbn [fst snd andb fmap fmap2 option_map fle flt].
  destruct (Rle_dec (sqrt ((x1 - fst q) ^ 2 + (y1 - snd q) ^ 2)) (sqrt ((x2 - fst q) ^ 2 + (y2 - snd q) ^ 2))) as [L|L];
  destruct (Rlt_dec (sqrt ((x2 - fst q) ^ 2 + (y2 - snd q) ^ 2)) (sqrt ((x1 - fst q) ^ 2 + (y1 - snd q) ^ 2))) as [G|G]; try lra;
  destruct (Rlt_dec (Rabs lat) (bound1 x1 y1 past)), (Rlt_dec (Rabs lat) (bound2 x2 y2 past)); cbn [andb negb]; split; try discriminate; try (intros _; split; [reflexivity|split; intros; lra]); try (intros; reflexivity); intros (_ & A1 & A2); exfalso; first [specialize (A1 L); lra|specialize (A2 G); lra].
Qed.
End P.
