From Coq Require Import Reals ZArith List Bool Lia Lra.
From Verif Require Import PyBase RangeModel RangeSpec RangeProofs CoordModel CoordSpec CoordProofs CoordProofs2
  DualCoordModel DualCoordSpec DualCoordProofs.
Import ListNotations.
Open Scope R_scope.

(** ** The boundaries *)
Lemma meets_shift rc s t m rho : shifted 24 t m -> (meets rc m s rho <-> meets rc t s rho).
Proof. intros S. unfold meets. rewrite (point_shift rho t m S). tauto. Qed.

Lemma boundary_pt_at h rc t m rho : h = 1%Z \/ h = (-1)%Z -> boundary_at rc t rho -> shifted 24 t m ->
  rfun rc (Some m) = rfun rc (Some t) -> boundary_pt h rc (Some m) = Ok (Some (IZR h * (90 - rho))).
Proof.
  intros Hh [c [Hc [Hm Hx]]] S Hf. pose proof (boundary_pt_spec h rc m Hh) as B. rewrite Hf, Hc in B.
  destruct B as [[lat [E [M1 M2]]]|[_ N]].
  - rewrite E. do 2 f_equal. rewrite <- (lat_of_colat h lat Hh). do 2 f_equal. apply Rle_antisym.
    + apply Hx. now apply (meets_shift rc _ t m).
    + apply M2. now apply (meets_shift rc _ t m).
  - destruct (N rho). now apply (meets_shift rc _ t m).
Qed.

Lemma mlt_ok_eq orc erc t m1 m2 : mlt_ok orc erc t -> wrap_once (Some t) = Some m1 -> wrap_once (Some m1) = Some m2 ->
  shifted 24 t m1 /\ shifted 24 t m2 /\
  rfun orc (Some m2) = rfun orc (Some t) /\ rfun erc (Some m1) = rfun erc (Some t).
Proof.
  intros Ok E1 E2. destruct (wrap_twice_shift t) as [a [b [A1 [A2 [S1 [S2 I]]]]]].
  rewrite A1 in E1. injection E1 as <-. rewrite A2 in E2. injection E2 as <-.
  split; [exact S1|]. split; [exact S2|]. destruct Ok as [R|P].
  - destruct (I R) as [-> ->]. now split.
  - split; [apply (P b S2)|apply (P a S1)].
Qed.

Lemma abs_h h x : h = 1%Z \/ h = (-1)%Z -> 0 < IZR h * x -> Rabs x = IZR h * x.
Proof. intros [-> | ->] H; [rewrite Rabs_pos_eq|rewrite Rabs_left]; lra. Qed.

Lemma mul_h h x : h = 1%Z \/ h = (-1)%Z -> IZR h * (IZR h * x) = x.
Proof. intros [-> | ->]; lra. Qed.

(** ** The three regions, for a point of the hemisphere *)
Section Regions.
  Variables (h : Z) (obl ebl ro re la : R).
  Hypothesis (Hh : h = 1%Z \/ h = (-1)%Z) (He : 0 < IZR h * ebl) (Ho : IZR h * ebl < IZR h * obl).
  Hypothesis (Hr : ro < re) (H90 : re < 90) (Hla : 0 < IZR h * la).
  Let o := IZR h * (90 - ro).
  Let e := IZR h * (90 - re).

  Lemma abs_o : Rabs o = 90 - ro.
  Proof. unfold o. rewrite (abs_h h) by (try exact Hh; rewrite mul_h by exact Hh; lra). now apply mul_h. Qed.
  Lemma abs_e : Rabs e = 90 - re.
  Proof. unfold e. rewrite (abs_h h) by (try exact Hh; rewrite mul_h by exact Hh; lra). now apply mul_h. Qed.
  Lemma abs_la : Rabs la = 90 - colat h la.
  Proof. rewrite (abs_h h) by assumption. unfold colat. lra. Qed.

  Lemma lt_o : abs_lt (Some la) (Some o) = true <-> ro < colat h la.
  Proof. cbn. rewrite abs_o, abs_la. destruct (Rlt_dec _ _); split; intros; try lra; try discriminate; reflexivity. Qed.
  Lemma lt_e : abs_lt (Some la) (Some e) = true <-> re < colat h la.
  Proof. cbn. rewrite abs_e, abs_la. destruct (Rlt_dec _ _); split; intros; try lra; try discriminate; reflexivity. Qed.
  Lemma ge_e : abs_ge (Some la) (Some e) = true <-> colat h la <= re.
  Proof. cbn. rewrite abs_e, abs_la. destruct (Rle_dec _ _); split; intros; try lra; try discriminate; reflexivity. Qed.

  Lemma bound_mid flag l : ro < colat h la <= re ->
    bound_lat obl ebl flag (Some la, l, (Some o, Some e)) =
      Some (obl - (o - la) * (obl - ebl) / (o - e)).
  Proof using Hh He Ho Hr H90 Hla.
    intros H. unfold bound_lat, reg_out, reg_mid.
    assert (A : abs_lt (Some la) (Some e) = false) by (apply not_true_iff_false; rewrite lt_e; lra).
    assert (B : abs_lt (Some la) (Some o) = true) by (apply lt_o; lra).
    assert (C : abs_ge (Some la) (Some e) = true) by (apply ge_e; lra).
    rewrite A, B, C. cbn [andb]. unfold mid_lat, fsub, fmul. cbn [fmap2 fdiv2].
    destruct (Req_EM_T (o - e) 0) as [Q|_]; [|reflexivity].
    unfold o, e in Q. destruct Hh as [-> | ->]; lra.
  Qed.
  Lemma bound_out flag l : re < colat h la ->
    bound_lat obl ebl flag (Some la, l, (Some o, Some e)) = Some (ebl - (e - la) * (ebl / e)).
  Proof using Hh He Ho Hr H90 Hla.
    intros H. unfold bound_lat, reg_out.
    assert (A : abs_lt (Some la) (Some e) = true) by (apply lt_e; lra). rewrite A.
    unfold out_lat, fsub, fmul. cbn [fmap2 fdiv2].
    destruct (Req_EM_T e 0) as [Q|_]; [|reflexivity]. unfold e in Q. destruct Hh as [-> | ->]; lra.
  Qed.
  Lemma bound_cap flag l : colat h la <= ro -> IZR h * obl <= IZR h * l ->
    bound_lat obl ebl flag (Some la, Some l, (Some o, Some e)) = Some l.
  Proof using Hh He Ho Hr H90 Hla.
    intros H L. unfold bound_lat, reg_out, reg_mid.
    assert (A : abs_lt (Some la) (Some e) = false) by (apply not_true_iff_false; rewrite lt_e; lra).
    assert (B : abs_lt (Some la) (Some o) = false) by (apply not_true_iff_false; rewrite lt_o; lra).
    rewrite A, B. cbn [andb]. unfold reg_ocb. cbn.
    rewrite (abs_h h obl), (abs_h h l) by (assumption || lra).
    destruct (Rle_dec _ _); [reflexivity|lra].
  Qed.
  Lemma bound_none flag l : colat h la <= ro ->
    bound_lat obl ebl flag (Some la, Some l, (Some o, Some e)) = Some l \/
    bound_lat obl ebl flag (Some la, Some l, (Some o, Some e)) = None.
  Proof using Hh He Ho Hr H90 Hla.
    intros H. unfold bound_lat, reg_out, reg_mid.
    assert (A : abs_lt (Some la) (Some e) = false) by (apply not_true_iff_false; rewrite lt_e; lra).
    assert (B : abs_lt (Some la) (Some o) = false) by (apply not_true_iff_false; rewrite lt_o; lra).
    rewrite A, B. cbn [andb]. destruct (reg_ocb _ _); [now left|]. destruct flag; [now right|now left].
  Qed.

  (** The values, and their way back. *)
  Lemma mid_value v : ro < colat h la <= re -> v = obl - (o - la) * (obl - ebl) / (o - e) ->
    (IZR h * v - IZR h * ebl) * (re - ro) = (IZR h * obl - IZR h * ebl) * (re - colat h la) /\
    IZR h * ebl <= IZR h * v < IZR h * obl /\
    o - (obl - v) * (o - e) / (obl - ebl) = la.
  Proof using Hh He Ho Hr H90 Hla.
    intros H ->. unfold o, e, colat in *.
    assert (D : IZR h * obl - IZR h * ebl > 0) by lra.
    assert (Q : IZR h * (obl - (IZR h * (90 - ro) - la) * (obl - ebl) / (IZR h * (90 - ro) - IZR h * (90 - re))) =
                IZR h * obl - (90 - ro - IZR h * la) * (IZR h * obl - IZR h * ebl) / (re - ro)).
    { destruct Hh as [-> | ->]; field; lra. }
    rewrite Q. split; [|split].
    - field. lra.
    - set (k := (IZR h * obl - IZR h * ebl) / (re - ro)).
      assert (K : 0 < k) by (apply Rdiv_lt_0_compat; lra).
      replace ((90 - ro - IZR h * la) * (IZR h * obl - IZR h * ebl) / (re - ro)) with ((90 - ro - IZR h * la) * k)
        by (unfold k; field; lra).
      assert (E : (re - ro) * k = IZR h * obl - IZR h * ebl) by (unfold k; field; lra).
      split.
      + assert ((90 - ro - IZR h * la) * k <= (re - ro) * k) by (apply Rmult_le_compat_r; lra). lra.
      + assert (0 < (90 - ro - IZR h * la) * k) by (apply Rmult_lt_0_compat; lra). lra.
    - destruct Hh as [-> | ->]; field; lra.
  Qed.
  Lemma out_value v : re < colat h la -> v = ebl - (e - la) * (ebl / e) ->
    IZR h * v * (90 - re) = IZR h * ebl * (90 - colat h la) /\
    0 < IZR h * v < IZR h * ebl /\
    e - (ebl - v) * (e / ebl) = la.
  Proof using Hh He Ho Hr H90 Hla.
    intros H ->. unfold e, colat in *.
    assert (Q : IZR h * (ebl - (IZR h * (90 - re) - la) * (ebl / (IZR h * (90 - re)))) =
                IZR h * la * (IZR h * ebl / (90 - re))).
    { destruct Hh as [-> | ->]; field; lra. }
    rewrite Q. assert (K : 0 < IZR h * ebl / (90 - re)) by (apply Rdiv_lt_0_compat; lra).
    split; [field; lra|]. split.
    - split; [apply Rmult_lt_0_compat; lra|].
      replace (IZR h * ebl) with ((90 - re) * (IZR h * ebl / (90 - re))) at 2 by (field; lra).
      apply Rmult_lt_compat_r; lra.
    - destruct Hh as [-> | ->]; field; lra.
  Qed.
End Regions.

(** ** Relative to the OCB *)
Lemma cap_value h bl rc lat t c l m : config_ok h bl -> rfun rc (Some t) = Some c -> 0 < rr rc + c ->
  normal_pt h bl rc (Some lat) (Some t) = Ok (Some l, Some m) ->
  (dist (point (colat h lat) t) (centre rc) <= rr rc + c <-> IZR h * bl <= IZR h * l) /\
  (dist (point (colat h lat) t) (centre rc) = rr rc + c -> l = bl) /\ IZR h * l <= 90.
Proof.
  intros Hc Hf Hr E. destruct (config_abs _ _ Hc) as [C1 [C2 C3]]. destruct Hc as [Hh Hb].
  destruct (normal_pt_spec h bl rc lat t c Hf ltac:(lra)) as [m0 [E0 _]].
  rewrite E0 in E. injection E as <- <-. set (D := dist _ _).
  assert (D0 : 0 <= D) by apply sqrt_pos.
  set (k := (90 - Rabs bl) / (rr rc + c)).
  assert (K : 0 < k) by (unfold k; rewrite C1; apply Rdiv_lt_0_compat; lra).
  rewrite (Rabs_pos_eq k) by lra.
  assert (KS : k * (rr rc + c) = colat h bl) by (unfold k; rewrite C1; field; lra).
  destruct (scale_cmp k (rr rc + c) (colat h bl) D K KS) as [S1 [S2 S3]].
  rewrite mul_h by exact Hh. split; [|split].
  - split; intros H.
    + assert (D * k <= colat h bl) by (destruct H as [H|H]; [apply Rlt_le, S2, H|apply Req_le, S1, H]).
      unfold colat in *. lra.
    + assert (D * k <= colat h bl) by (unfold colat in *; lra).
      destruct (Rle_lt_dec D (rr rc + c)) as [G|G]; [exact G|]. apply S3 in G. lra.
  - intros H. apply S1 in H. rewrite H. now apply lat_of_colat.
  - assert (0 <= D * k) by (apply Rmult_le_pos; lra). lra.
Qed.

(** ** Dual revert_coord, one element *)
Lemma revert_coord_same b la ta cc z n rc : current b = Some rc ->
  length la = n -> length ta = n -> length cc = n -> (0 < n)%nat -> (z = true -> n = 1%nat) ->
  exists L M,
    revert_coord b (mkArr false false true la) (mkArr false false true ta) (mkArr z false true cc) = Ok (L, M) /\
    length (el L) = n /\ length (el M) = n /\
    forall i v m c, nth_error la i = Some v -> nth_error ta i = Some m -> nth_error cc i = Some c ->
      wrong_side (hemi b) v = false ->
      exists l mm, nth_error (el L) i = Some l /\ nth_error (el M) i = Some mm /\
        revert_pt (hemi b) (blat b) rc v m c = Ok (l, mm).
Proof.
  intros Hc H1 H2 H3 Hn Hz. unfold revert_coord. rewrite Hc. cbn [el is0d andb].
  destruct (forallb (wrong_side (hemi b)) la) eqn:Y.
  - do 2 eexists. split; [reflexivity|]. unfold all_nan. cbn [el out]. rewrite repeat_length.
    assert (ML : max_len [mkArr false false true la; mkArr false false true ta; mkArr z false true cc] = n).
    { destruct z; cbn; lia. }
    rewrite ML. split; [reflexivity|]. split; [reflexivity|]. intros i v m c Iv _ _ W.
    rewrite forallb_forall in Y. apply nth_error_In in Iv. rewrite (Y _ Iv) in W. discriminate.
  - rewrite bc2_same by lia. cbn [bind]. rewrite bc2_same by (rewrite combine_length; lia). cbn [bind].
    destruct (mapE_total (fun q => revert_pt (hemi b) (blat b) rc (fst (fst q)) (snd (fst q)) (snd q))
                (combine (combine la ta) cc)) as [rs [E F]].
    { intros [[x y] w]. destruct (revert_pt_total (hemi b) (blat b) rc x y w) as [l [m [Q _]]]. exists (l, m). exact Q. }
    rewrite E. cbn [bind]. do 2 eexists. split; [reflexivity|]. cbn [el out]. rewrite !map_length.
    pose proof (f2_length _ _ _ F) as FL. rewrite !combine_length in FL.
    split; [lia|]. split; [lia|]. intros i v m c Iv Im Ic W.
    destruct (forall2_nth _ _ _ _ _ F (nth_combine _ _ _ _ _ (nth_combine _ _ _ _ _ Iv Im) Ic)) as [[l mm] [R1 R2]].
    exists l, mm. rewrite !nth_error_map, R1. split; [reflexivity|]. split; [reflexivity|]. exact R2.
Qed.

Lemma nth_app_l {A} (l l' : list A) i x : nth_error l i = Some x -> nth_error (l ++ l') i = Some x.
Proof. intros H. rewrite nth_error_app1; [exact H|]. apply nth_error_Some. congruence. Qed.

Lemma nth_firstn1 {A} (l : list A) i x : nth_error l i = Some x -> i = O -> nth_error (firstn 1 l) i = Some x.
Proof. intros H ->. destruct l; [discriminate|exact H]. Qed.

Lemma dual_revert_elem d orc erc BL M C amlt n z ow i b mm c t :
  paired d orc erc ->
  isint BL = false -> isint M = false -> isint C = false -> isint amlt = false ->
  is0d BL = z -> is0d M = z -> is0d C = z ->
  length (el BL) = n -> length (el M) = n -> length (el C) = n -> (0 < n)%nat -> (z = true -> n = 1%nat) ->
  (if is0d amlt then length (el amlt) = 1%nat else length (el amlt) = n) ->
  (i < n)%nat -> nth_error (el BL) i = Some (Some b) -> nth_error (el M) i = Some (Some mm) ->
  nth_error (el C) i = Some (Some c) -> belem (el amlt) i = Some t ->
  (hemi (d_o d) = 1%Z \/ hemi (d_o d) = (-1)%Z) -> 0 < IZR (hemi (d_o d)) * b -> isnd C = true ->
  Rabs (blat (d_e d)) < Rabs (blat (d_o d)) ->
  let h := hemi (d_o d) in
  exists d' LA LT la lt m1 m2 ob eb,
    dual_revert d BL M C false (Some amlt) ow = (d', Ok (LA, LT)) /\
    nth_error (el LA) i = Some la /\ nth_error (el LT) i = Some lt /\
    wrap_once (Some t) = Some m1 /\ wrap_once (Some m1) = Some m2 /\
    boundary_pt h orc (Some m2) = Ok ob /\ boundary_pt h erc (Some m1) = Ok eb /\
    exists l0 t0, revert_pt h (blat (d_o d)) orc (Some b) (Some mm) (Some c) = Ok (l0, t0) /\
    (la, lt) = rev_pt (blat (d_o d)) (blat (d_e d)) ((l0, t0), (Some b, (ob, eb)), Some m2).
Proof.
  intros P IB IM IC IA ZB ZM ZC LB LM LC N0 Hz LA Hi Eb Em Ec Et Hh Hb NC Hoe h.
  unfold dual_revert. rewrite ZB, ZM.
  assert (SP : spread BL M = Ok (mkArr false false true (el BL), mkArr false false true (el M))).
  { unfold spread. rewrite ZB, ZM, IB, IM. destruct z; [reflexivity|]. now rewrite LB, LM, Nat.eqb_refl. }
  rewrite SP.
  assert (CC : C = mkArr z false true (el C)) by (destruct C; cbn in *; congruence).
  pose proof (proj2 (current_selected _ _) (p_o _ _ _ P)) as Cur.
  destruct (revert_coord_same (d_o d) (el BL) (el M) (el C) z n orc Cur LB LM LC N0 Hz) as [L [T [E [L1 [L2 EE]]]]].
  rewrite <- CC in E. rewrite E. cbn [el].
  destruct (EE i _ _ _ Eb Em Ec (inside_right _ _ Hh Hb)) as [l0 [t0 [G1 [G2 G3]]]].
  destruct (wrap_twice_shift t) as [m1 [m2 [T1 [T2 _]]]].
  destruct (boundary_pt_total h orc (Some m2)) as [ob Ob]. destruct (boundary_pt_total h erc (Some m1)) as [eb Ebb].
  assert (FST : forall (l : list fl) x, nth_error l i = Some x ->
     nth_error (if z then firstn 1 l else l) i = Some x).
  { intros l x H. destruct z; [|exact H]. apply nth_firstn1; [exact H|]. specialize (Hz eq_refl). lia. }
  cbn [orb]. destruct (forallb (fun v => abs_ge v (Some (blat (d_o d)))) (el BL)) eqn:ALL.
  - do 9 eexists. split; [rewrite andb_diag; reflexivity|]. cbn [el out].
    split; [apply FST; exact G1|]. split; [apply FST; exact G2|]. split; [exact T1|]. split; [exact T2|].
    split; [exact Ob|]. split; [exact Ebb|]. exists l0, t0. split; [exact G3|].
    rewrite forallb_forall in ALL. pose proof (ALL _ (nth_error_In _ _ Eb)) as AG. cbn in AG.
    unfold rev_pt, abs_lt, abs_ge. destruct (Rle_dec (Rabs (blat (d_o d))) (Rabs b)) as [Q|Q]; [|discriminate].
    destruct (Rlt_dec (Rabs b) (Rabs (blat (d_o d)))) as [Q1|Q1]; [lra|]. cbn [andb].
    destruct (Rlt_dec (Rabs b) (Rabs (blat (d_e d)))) as [Q2|Q2]; [|reflexivity].
    exfalso. lra.
  - assert (MS : exists ms, (if is0d amlt then if z && z then el amlt else repeat (hd None (el amlt)) (length (el BL)) else el amlt) = ms /\
        length ms = n /\ nth_error ms i = Some (Some t)).
    { eexists. split; [reflexivity|]. rewrite andb_diag. destruct (is0d amlt).
      - destruct (el amlt) as [|x [|y l]]; try discriminate. cbn in Et. subst x. destruct z.
        + specialize (Hz eq_refl). split; [now rewrite Hz|]. replace i with O by lia. reflexivity.
        + rewrite repeat_length. split; [exact LB|]. cbn [hd]. apply nth_error_repeat'. lia.
      - split; [exact LA|]. rewrite nth_belem by lia. now rewrite Et. }
    destruct MS as [ms [-> [LMS IMS]]].
    replace (isint amlt && negb (is0d amlt && negb (z && z))) with false by (now rewrite IA).
    set (ow' := ow || _).
    match goal with |- context [with_boundaries d ms false ow' ?u] =>
      destruct (with_boundaries_spec d orc erc ms ow' u P) as [d' [W [_ [P' K]]]] end.
    fold h in W. clear K.
    assert (J1 : nth_error (wrapped ms) i = Some (Some m1)) by (unfold wrapped; rewrite nth_error_map, IMS; cbn [option_map]; now rewrite T1).
    assert (J2 : nth_error (wrapped (wrapped ms)) i = Some (Some m2)) by (unfold wrapped at 1; rewrite nth_error_map, J1; cbn [option_map]; now rewrite T2).
    destruct (lats_of_nth h erc _ _ _ J1) as [e [K1 K2]]. destruct (lats_of_nth h orc _ _ _ J2) as [o [K3 K4]].
    rewrite Ob in K4. injection K4 as <-. rewrite Ebb in K2. injection K2 as <-.
    assert (LW : length (wrapped (wrapped ms)) = n) by (unfold wrapped; now rewrite !map_length).
    rewrite W.
    replace (length (wrapped (wrapped ms)) <? length (el BL))%nat with false
      by (symmetry; apply Nat.ltb_ge; lia).
    set (ps := combine (combine (combine (el L) (el T)) _) _).
    assert (PS : nth_error ps i = Some ((l0, t0), (Some b, (ob, eb)), Some m2)).
    { unfold ps. apply nth_combine; [|exact J2]. apply nth_combine; [now apply nth_combine|].
      apply nth_combine; [exact Eb|]. now apply nth_combine. }
    pose proof (map_nth_error (rev_pt (blat (d_o d)) (blat (d_e d))) i ps PS) as R.
    do 9 eexists. split; [rewrite andb_diag; reflexivity|]. cbn [el out].
    split; [apply FST, nth_app_l; exact (map_nth_error fst i _ R)|].
    split; [apply FST, nth_app_l; exact (map_nth_error snd i _ R)|].
    split; [exact T1|]. split; [exact T2|]. split; [exact Ob|]. split; [exact Ebb|].
    exists l0, t0. split; [exact G3|]. now rewrite <- surjective_pairing.
Qed.
