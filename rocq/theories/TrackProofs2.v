(** Satellite tracks on 2-D arrays: a row is cleared as a whole. *)
From Coq Require Import Reals ZArith List Bool Lia Lra.
From Verif Require Import PyBase RangeModel RangeSpec RangeProofs CoordModel CoordSpec CoordProofs LoadProofs TrackModel TrackSpec TrackProofs.
Import ListNotations.
Open Scope R_scope.

Notation at2 g r c := (nth c (nth r g []) false).
Lemma where2_from l : forall n r c, In (r, c) (concat (map2 (fun r row => map (pair r) (where_from 0 row)) (seq n (length l)) l)) <-> (n <= r)%nat /\ at2 l (r - n) c = true.
Proof.
  induction l as [|row l IH]; intros n r c; cbn [length seq map2 concat].
  - split; [intros []|]. intros [_ H]. destruct (r - n)%nat; destruct c; discriminate H.
  - rewrite in_app_iff, IH, in_map_iff. split.
    + intros [(c' & E & I)|[H1 H2]].
      * injection E as <- <-. apply where_in in I. rewrite Nat.sub_0_r in I. rewrite Nat.sub_diag. split; [lia|]. exact (proj2 I).
      * split; [lia|]. replace (r - n)%nat with (S (r - S n)) by lia. exact H2.
    + intros [H1 H2]. destruct (Nat.eq_dec r n) as [->|N].
      * left. exists c. split; [reflexivity|]. apply where_in. rewrite Nat.sub_diag in H2. cbn [nth] in H2. rewrite Nat.sub_0_r. split; [lia|exact H2].
      * right. split; [lia|]. replace (r - n)%nat with (S (r - S n)) in H2 by lia. exact H2.
Qed.
Lemma where2_in l r c : In (r, c) (where2 l) <-> at2 l r c = true.
Proof. unfold where2. rewrite where2_from, Nat.sub_0_r. split; [intros [_ H]; exact H|intros H; split; [lia|exact H]]. Qed.
Lemma clear_nth_row (no : list bool) j r (l : list (list bool)) : nth r (clear no j l) [] = if Nat.eqb r j then (if Nat.ltb r (length l) then no else []) else nth r l [].
Proof.
  revert r j. induction l as [|a l IH]; intros r j; cbn [clear].
  - cbn [length]. destruct j; destruct r; cbn [Nat.eqb]; try reflexivity; destruct (Nat.eqb _ _); reflexivity.
  - destruct j as [|j], r as [|r]; cbn [nth Nat.eqb length]; try reflexivity. exact (IH r j).
Qed.
Lemma nth_no n c : nth c (repeat false n) false = false.
Proof. revert c. induction n as [|n IH]; intros [|c]; cbn [repeat nth]; auto. Qed.
Lemma clear_row_at j r c g : at2 (clear_row j g) r c = (at2 g r c && negb (Nat.eqb r j)).
Proof.
  unfold clear_row. rewrite clear_nth_row. destruct (Nat.eqb r j) eqn:E; [|rewrite andb_true_r; reflexivity]. rewrite andb_false_r.
  destruct (Nat.ltb r (length g)); [apply nth_no|destruct c; reflexivity].
Qed.
Lemma clear_rows_at js : forall g r c, at2 (fold_left (fun g j => clear_row j g) js g) r c = (at2 g r c && negb (existsb (Nat.eqb r) js)).
Proof.
  induction js as [|j js IH]; intros g r c; cbn [fold_left existsb]; [rewrite andb_true_r; reflexivity|].
  rewrite IH, clear_row_at, negb_orb, andb_assoc. reflexivity.
Qed.
Lemma clear_row_shape j g : map (@length bool) (clear_row j g) = map (@length bool) g.
Proof.
  unfold clear_row. assert (X : forall n, n = length (nth j g []) -> map (@length bool) (clear (repeat false n) j g) = map (@length bool) g); [|apply X; reflexivity].
  revert j. induction g as [|a g IH]; intros j n E; [destruct j; reflexivity|]. destruct j as [|j]; cbn [clear map nth] in *.
  - rewrite repeat_length, E. reflexivity.
  - rewrite (IH j n E). reflexivity.
Qed.
Lemma clear_rows_shape js : forall g, map (@length bool) (fold_left (fun g j => clear_row j g) js g) = map (@length bool) g.
Proof. induction js as [|j js IH]; intros g; [reflexivity|]. cbn [fold_left]. rewrite IH. apply clear_row_shape. Qed.

Section P.
Context (x1 y1 x2 y2 : R) (h : Z) (del_x del_y past : R).
Notation inb := (in_band x1 y1 x2 y2 del_x del_y).
Notation acc := (accept x1 y1 x2 y2 del_x del_y past).
Lemma points2_ok rows : exists ps, points2 h rows = Ok ps /\ Forall2 (Forall2 (fun pt p => track_xy h (fst pt) (snd pt) = Ok p)) rows ps.
Proof.
  induction rows as [|row rows (ps & E & F)]; [exists []; split; [reflexivity|constructor]|]. cbn [points2].
  destruct (points_ok h row) as (p & Ep & Fp). rewrite Ep, E. cbn [bind]. exists (p :: ps). split; [reflexivity|]. constructor; assumption.
Qed.
Lemma low2_in b lats l r : existsb (Nat.eqb r) (too_low2 b lats (where2 l)) = true <-> exists c, at2 l r c = true /\ flt (fmap Rabs (nth c (nth r lats []) None)) (Some b) = true.
Proof.
  rewrite existsb_exists. unfold too_low2. split.
  - intros (j & I & E). apply Nat.eqb_eq in E. subst j. apply in_map_iff in I. destruct I as ([r' c] & E & I). cbn [fst] in E. subst r'.
    apply filter_In in I. cbn [fst snd] in I. destruct I as [I F]. apply where2_in in I. exists c. split; assumption.
  - intros (c & H & F). exists r. split; [|apply Nat.eqb_refl]. apply in_map_iff. exists (r, c). split; [reflexivity|]. apply filter_In. split; [apply where2_in; exact H|exact F].
Qed.
(** The points of one row. *)
Definition row_ok (pts : list (fl * fl)) (ps : list (fl * fl)) : bool :=
  forallb (fun pp => negb (inb (snd pp)) || acc (fst (fst pp)) (snd pp)) (combine pts ps).
Lemma nth_map_in {X Y} (f : X -> Y) l i d e : nth_error l i = Some e -> nth i (map f l) d = f e.
Proof. intros E. apply nth_error_nth. rewrite nth_error_map, E. reflexivity. Qed.
Lemma nth_map2_in {X Y Z} (f : X -> Y -> Z) l m i d a b : nth_error l i = Some a -> nth_error m i = Some b -> nth i (map2 f l m) d = f a b.
Proof. revert m i. induction l as [|u l IH]; intros [|v m] [|i] E1 E2; cbn in *; try discriminate; [congruence|]. apply IH; assumption. Qed.
Lemma nth_map2_out {X Y Z} (f : X -> Y -> Z) l m i d : (length l <= i)%nat -> nth i (map2 f l m) d = d.
Proof. revert m i. induction l as [|u l IH]; intros [|v m] [|i] L; cbn in *; try reflexivity; [lia|apply IH; lia]. Qed.
Lemma nth_map2_out2 {X Y Z} (f : X -> Y -> Z) l m i d : (length m <= i)%nat -> nth i (map2 f l m) d = d.
Proof. revert m i. induction l as [|u l IH]; intros [|v m] [|i] L; cbn in *; try reflexivity; [lia|apply IH; lia]. Qed.

Lemma track2_rows rows : valid_request del_x del_y past h -> x1 <> x2 ->
  exists good, track2 x1 y1 x2 y2 h del_x del_y past rows = Ok good /\
    Forall2 (fun row g => exists ps, Forall2 (fun pt p => track_xy h (fst pt) (snd pt) = Ok p) row ps /\ g = map (fun p => inb p && row_ok row ps) ps) rows good.
Proof.
  intros (DX & DY & DP & H) NX. unfold track2.
  assert (RF : refused h del_x del_y past = false).
  { unfold refused. destruct (Rlt_dec del_x 0); [lra|]. destruct (Rlt_dec del_y 0); [lra|]. destruct (Rlt_dec past 0); [lra|]. destruct H as [-> | ->]; reflexivity. }
  rewrite RF. destruct (Req_EM_T (x1 - x2) 0); [lra|]. destruct (points2_ok rows) as (pss & -> & F). cbn [bind]. cbv zeta.
  set (good := map (map inb) pss). set (res := fold_left _ _ _).
  set (want := map2 (fun row ps => map (fun p => inb p && row_ok row ps) ps) rows pss).
  pose proof (F2_length _ _ _ F) as LP.
  assert (LW : length want = length pss) by (unfold want; clear - LP; revert pss LP; induction rows as [|a rows IH]; intros [|b pss] LP; cbn in *; try discriminate; [reflexivity|]; f_equal; apply IH; lia).
  (* low rows *)
  assert (LOW : forall r row ps, nth_error rows r = Some row -> nth_error pss r = Some ps ->
     existsb (Nat.eqb r) (too_low2 (bound1 x1 y1 past) (map (map fst) rows) (where2 (map2 (map2 (near1 x1 y1 x2 y2)) good pss))) ||
     existsb (Nat.eqb r) (too_low2 (bound2 x2 y2 past) (map (map fst) rows) (where2 (map2 (map2 (near2 x1 y1 x2 y2)) good pss))) = negb (row_ok row ps)).
  { intros r row ps E1 E2.
    assert (FR : Forall2 (fun pt p => track_xy h (fst pt) (snd pt) = Ok p) row ps).
    { clear - F E1 E2. revert r E1 E2. induction F as [|a b rows pss AB F IH]; intros [|r] E1 E2; cbn in *; try discriminate; [congruence|eapply IH; eassumption]. }
    pose proof (F2_length _ _ _ FR) as LR.
    assert (NR : forall nr c pt p, nth_error row c = Some pt -> nth_error ps c = Some p -> at2 (map2 (map2 nr) good pss) r c = nr (inb p) p /\ nth c (nth r (map (map fst) rows) []) None = fst pt).
    { intros nr c pt p P1 P2. split.
      - rewrite (nth_map2_in (map2 nr) good pss r [] (map inb ps) ps); [|unfold good; rewrite nth_error_map, E2; reflexivity|exact E2].
        apply nth_map2_in; [rewrite nth_error_map, P2; reflexivity|exact P2].
      - rewrite (nth_map_in (map fst) rows r [] row E1). apply (nth_map_in fst _ _ _ _ P1). }
    assert (NO : forall nr c, at2 (map2 (map2 nr) good pss) r c = true -> exists pt p, nth_error row c = Some pt /\ nth_error ps c = Some p).
    { intros nr c T. rewrite (nth_map2_in (map2 nr) good pss r [] (map inb ps) ps) in T; [|unfold good; rewrite nth_error_map, E2; reflexivity|exact E2].
      destruct (Nat.lt_ge_cases c (length ps)) as [L|L]; [|rewrite nth_map2_out2 in T by exact L; discriminate].
      destruct (nth_error ps c) as [p|] eqn:P2; [|apply nth_error_None in P2; lia]. destruct (nth_error row c) as [pt|] eqn:P1; [|apply nth_error_None in P1; lia]. exists pt, p. split; reflexivity. }
    apply eq_true_iff_eq. rewrite orb_true_iff, !low2_in. split.
    - intros X. apply negb_true_iff. apply not_true_is_false. unfold row_ok. intros Q. rewrite forallb_forall in Q.
      assert (Y : exists c pt p, nth_error row c = Some pt /\ nth_error ps c = Some p /\
        (near1 x1 y1 x2 y2 (inb p) p && flt (fmap Rabs (fst pt)) (Some (bound1 x1 y1 past)) = true \/ near2 x1 y1 x2 y2 (inb p) p && flt (fmap Rabs (fst pt)) (Some (bound2 x2 y2 past)) = true)).
      { destruct X as [(c & T & L)|(c & T & L)]; destruct (NO _ _ T) as (pt & p & P1 & P2); exists c, pt, p; destruct (NR (near1 x1 y1 x2 y2) _ _ _ P1 P2) as [N1 N2]; rewrite (proj1 (NR _ _ _ _ P1 P2)) in T; rewrite N2 in L;
        (split; [exact P1|split; [exact P2|]]); [left|right]; rewrite T, L; reflexivity. }
      destruct Y as (c & pt & p & P1 & P2 & Y). assert (IC : In (pt, p) (combine row ps)).
      { clear - P1 P2. revert c ps P1 P2. induction row as [|a row IH]; intros [|c] [|b ps] P1 P2; cbn in *; try discriminate; [left; congruence|right; eapply IH; eassumption]. }
      specialize (Q _ IC). cbn [fst snd] in Q. unfold accept in Q. cbv zeta in Q. unfold near1, near2 in *.
      destruct (inb p); cbn [negb orb andb] in *; [|destruct Y; discriminate]. destruct Y as [Y|Y]; rewrite Y in Q; cbn [negb andb] in Q; [discriminate|rewrite andb_false_r in Q; discriminate].
    - intros N. apply negb_true_iff in N. unfold row_ok in N.
      assert (Y : exists c pt p, nth_error row c = Some pt /\ nth_error ps c = Some p /\ (negb (inb p) || acc (fst pt) p) = false).
      { clear - N LR. revert ps LR N. induction row as [|a row IH]; intros [|b ps] LR N; cbn in *; try discriminate. apply andb_false_iff in N. destruct N as [N|N].
        - exists 0%nat, a, b. repeat split. exact N.
        - destruct (IH ps ltac:(lia) N) as (c & pt & p & Y). exists (S c), pt, p. exact Y. }
      destruct Y as (c & pt & p & P1 & P2 & Y). apply orb_false_iff in Y. destruct Y as [Y1 Y2]. apply negb_false_iff in Y1. unfold accept in Y2. cbv zeta in Y2. rewrite Y1 in Y2. cbn [andb] in Y2.
      apply andb_false_iff in Y2. destruct Y2 as [Y|Y]; apply negb_false_iff in Y; apply andb_true_iff in Y; destruct Y as [Y3 Y4]; [left|right]; exists c;
      (split; [rewrite (proj1 (NR _ _ _ _ P1 P2)), Y1; exact Y3|rewrite (proj2 (NR (near1 x1 y1 x2 y2) _ _ _ P1 P2)); exact Y4]). }
  assert (AT : forall g : list (list bool), map (@length bool) g = map (@length bool) good -> (forall r c, at2 g r c = at2 want r c) -> g = want).
  { intros g SH Q. assert (SW : map (@length bool) want = map (@length bool) good).
    { unfold want, good. clear - LP. revert pss LP. induction rows as [|a rows IH]; intros [|b pss] LP; cbn in *; try discriminate; [reflexivity|]. rewrite !map_length. f_equal. apply IH. lia. }
    assert (LG : length g = length want) by (rewrite <- (map_length (@length bool) g), <- (map_length (@length bool) want); congruence).
    apply (nth_ext _ _ [] []); [exact LG|]. intros r Lr. apply (nth_ext _ _ false false); [|intros c _; apply Q].
    change (length (nth r g [])) with ((@length bool) (nth r g [])). rewrite <- (map_nth (@length bool) g [] r), <- (map_nth (@length bool) want [] r). congruence. }
  assert (BODY : forall r c, at2 want r c = at2 good r c && match nth_error rows r, nth_error pss r with Some row, Some ps => row_ok row ps | _, _ => true end).
  { intros r c. unfold want, good. destruct (nth_error pss r) as [ps|] eqn:E2.
    - destruct (nth_error rows r) as [row|] eqn:E1; [|apply nth_error_None in E1; assert (nth_error pss r <> None) by congruence; apply nth_error_Some in H0; lia].
      rewrite (nth_map2_in _ rows pss r [] row ps E1 E2), (nth_map_in (map inb) pss r [] ps E2).
      destruct (nth_error ps c) as [p|] eqn:P; [rewrite !(nth_map_in _ ps c false p P); reflexivity|]. apply nth_error_None in P. rewrite !nth_overflow by (rewrite map_length; exact P). reflexivity.
    - apply nth_error_None in E2. rewrite nth_map2_out2 by exact E2. rewrite (nth_overflow (map (map inb) pss)) by (rewrite map_length; exact E2). destruct c; reflexivity. }
  exists want. split.
  - f_equal. destruct (existsb (existsb (fun b => b)) good) eqn:EX.
    + f_equal. apply AT; [unfold res; rewrite !clear_rows_shape; reflexivity|]. intros r c. unfold res. rewrite !clear_rows_at, BODY, <- andb_assoc, <- negb_orb. f_equal.
      destruct (nth_error rows r) as [row|] eqn:E1; destruct (nth_error pss r) as [ps|] eqn:E2.
      * rewrite (LOW r row ps E1 E2), negb_involutive. reflexivity.
      * apply nth_error_None in E2. assert (Q : (r < length rows)%nat) by (apply nth_error_Some; congruence). lia.
      * apply nth_error_None in E1. assert (Q : (r < length pss)%nat) by (apply nth_error_Some; congruence). lia.
      * apply nth_error_None in E2. apply negb_true_iff. apply orb_false_iff. split; apply not_true_is_false; rewrite low2_in; intros (c' & T & _); rewrite nth_map2_out2 in T by exact E2; destruct c'; discriminate T.
    + f_equal. apply AT; [reflexivity|]. intros r c. rewrite BODY. destruct (at2 good r c) eqn:G; [|reflexivity]. exfalso.
      assert (X : existsb (existsb (fun b => b)) good = true); [|congruence]. apply existsb_exists.
      destruct (nth_error good r) as [gr|] eqn:GR; [|apply nth_error_None in GR; rewrite (nth_overflow good) in G by exact GR; destruct c; discriminate G].
      exists gr. split; [eapply nth_error_In; exact GR|]. rewrite (nth_error_nth _ _ _ GR) in G. apply existsb_exists. exists true. split; [|reflexivity]. rewrite <- G. apply nth_In.
      destruct (Nat.lt_ge_cases c (length gr)) as [L|L]; [exact L|]. rewrite nth_overflow in G by exact L. discriminate G.
  - unfold want. clear - F. induction F as [|row ps rows pss AB F IH]; cbn [map2]; constructor; [exists ps; split; [exact AB|reflexivity]|exact IH].
Qed.
End P.
