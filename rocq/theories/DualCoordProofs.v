From Coq Require Import Reals ZArith List Bool Lia Lra.
From Verif Require Import PyBase RangeModel RangeSpec RangeProofs CoordModel CoordSpec CoordProofs CoordProofs2
  DualCoordModel DualCoordSpec.
Import ListNotations.
Open Scope R_scope.

(** ** Lists *)
Lemma nth_combine {A B} (a : list A) (b : list B) i x y :
  nth_error a i = Some x -> nth_error b i = Some y -> nth_error (combine a b) i = Some (x, y).
Proof.
  revert b i. induction a as [|p a IH]; intros [|q b] [|i] H K; try discriminate; cbn in *.
  - congruence.
  - now apply IH.
Qed.

Lemma nth_combine_inv {A B} (a : list A) (b : list B) i x y :
  nth_error (combine a b) i = Some (x, y) -> nth_error a i = Some x /\ nth_error b i = Some y.
Proof.
  revert b i. induction a as [|p a IH]; intros [|q b] [|i] H; try discriminate; cbn in *.
  - injection H as -> ->. now split.
  - now apply IH.
Qed.

Lemma nth_belem (l : list fl) i : (i < length l)%nat -> nth_error l i = Some (belem l i).
Proof.
  intros H. destruct l as [|x [|y l]]; [cbn in H; lia| |].
  - destruct i; [reflexivity|cbn in H; lia].
  - unfold belem. apply nth_error_nth'. exact H.
Qed.

Lemma nth_error_repeat' {A} (x : A) n i : (i < n)%nat -> nth_error (repeat x n) i = Some x.
Proof. revert i. induction n; intros [|i] H; try lia; [reflexivity|]. cbn. apply IHn. lia. Qed.

Lemma py_get_nonneg {A} (l : list A) i a : (0 <= i)%Z -> nth_error l (Z.to_nat i) = Some a -> py_get l i = Some a.
Proof.
  intros H E. assert (Z.to_nat i < length l)%nat by (apply nth_error_Some; congruence).
  apply py_get_denotes. exists (Z.to_nat i). split; [split; lia|exact E].
Qed.

Lemma selected_denotes b rc : selected b rc -> denotes (length (recs b)) (rind b) (Z.to_nat (rind b)).
Proof. intros [H _]. split; lia. Qed.

(** ** Updating the stored boundaries *)
Lemma get_lat_at b s mlts i k rc : denotes (length (recs b)) i k -> nth_error (recs b) k = Some rc -> stores_fit b s ->
  exists c, get_aacgm_boundary_lat b s (mkArr false false true mlts) (Some [i]) true =
      (c, None, map wrap_once mlts) /\ length c = length (recs b) /\
    nth_error c k = Some (Some (lats_of (hemi b) rc (map wrap_once mlts), map wrap_once mlts)) /\
    forall c0 j, s = Some c0 -> j <> k -> nth_error c j = nth_error c0 j.
Proof.
  intros D N F. unfold get_aacgm_boundary_lat. cbn [isint isnd el].
  set (c0 := match s with Some c => c | None => _ end).
  assert (L : length c0 = length (recs b)) by (unfold c0; destruct s; [exact F|apply repeat_length]).
  set (m1 := map wrap_once mlts).
  destruct (nth_error c0 k) as [old|] eqn:Nc; [|exfalso; apply nth_error_None in Nc; rewrite L in Nc; destruct D; lia].
  cbn [boundary_loop].
  assert (P1 : py_get c0 i = Some old) by (apply py_get_denotes; exists k; split; [now rewrite L|exact Nc]).
  assert (P2 : py_get (recs b) i = Some rc) by (apply py_get_denotes; exists k; now split).
  rewrite P1, P2, lats_of_eq.
  destruct (set_at_nth c0 i k (Some (lats_of (hemi b) rc m1, m1)) ltac:(now rewrite L)) as [Z1 Z2].
  exists (set_at c0 i (Some (lats_of (hemi b) rc m1, m1))).
  split; [destruct old; reflexivity|]. split; [now rewrite Z1|]. split.
  - rewrite Z2. now destruct (Nat.eq_dec _ _).
  - intros c1 j E Hj. assert (c1 = c0) by (unfold c0; now rewrite E). subst c1. rewrite Z2. now destruct (Nat.eq_dec _ _).
Qed.

Lemma get_lat_one b s mlts rc : selected b rc -> stores_fit b s ->
  exists c, get_aacgm_boundary_lat b s (mkArr false false true mlts) (Some [rind b]) true =
      (c, None, map wrap_once mlts) /\ length c = length (recs b) /\
    py_get c (rind b) = Some (Some (lats_of (hemi b) rc (map wrap_once mlts), map wrap_once mlts)) /\
    forall c0 j, s = Some c0 -> j <> Z.to_nat (rind b) -> nth_error c j = nth_error c0 j.
Proof.
  intros S F. pose proof (selected_denotes b rc S) as D.
  destruct (get_lat_at b s mlts _ _ rc D (proj2 S) F) as [c [E [L [N K]]]].
  exists c. repeat (split; [assumption|]). split; [|exact K]. apply py_get_denotes. exists (Z.to_nat (rind b)).
  split; [now rewrite L|exact N].
Qed.

Definition wrapped (mlts : list fl) := map wrap_once mlts.

Lemma update_pair_spec d orc erc mlts : paired d orc erc ->
  let h := hemi (d_o d) in
  exists os es,
    update_pair d mlts false (d_rec d) =
      (put_stores d (Some os) (Some es),
       Ok (lats_of h erc (wrapped mlts), lats_of h orc (wrapped (wrapped mlts)), wrapped (wrapped mlts))) /\
    length os = length (recs (d_o d)) /\ length es = length (recs (d_e d)) /\
    (forall c0 j, d_os d = Some c0 -> j <> Z.to_nat (rind (d_o d)) -> nth_error os j = nth_error c0 j) /\
    (forall c0 j, d_es d = Some c0 -> j <> Z.to_nat (rind (d_e d)) -> nth_error es j = nth_error c0 j) /\
    py_get os (rind (d_o d)) = Some (Some (lats_of h orc (wrapped (wrapped mlts)), wrapped (wrapped mlts))).
Proof.
  intros P h. destruct (get_lat_one (d_e d) (d_es d) mlts erc (p_e _ _ _ P) (p_se _ _ _ P)) as [es [E1 [L1 [G1 K1]]]].
  destruct (get_lat_one (d_o d) (d_os d) (wrapped mlts) orc (p_o _ _ _ P) (p_so _ _ _ P)) as [os [E2 [L2 [G2 K2]]]].
  exists os, es. unfold update_pair.
  pose proof (p_range _ _ _ P) as R.
  rewrite (py_get_nonneg _ _ _ (proj1 R) (p_oi _ _ _ P)), (py_get_nonneg _ _ _ (proj1 R) (p_ei _ _ _ P)).
  rewrite E1. fold (wrapped mlts). rewrite E2. unfold getE. rewrite G1, G2. cbn [bind].
  rewrite (p_h _ _ _ P). fold h. repeat (split; [reflexivity || assumption|]). reflexivity.
Qed.

Lemma stored_at_ok b s i : stores_fit b s -> (exists k, denotes (length (recs b)) i k) -> exists x, stored_at s i = Ok x.
Proof.
  intros F [k D]. destruct s as [c|]; [|now exists None]. cbn. cbn in F.
  destruct (nth_error c k) as [x|] eqn:E; [|apply nth_error_None in E; destruct D; lia].
  exists x. unfold getE. rewrite (proj2 (py_get_denotes c i x)); [reflexivity|]. exists k. now rewrite F.
Qed.

Lemma stored_at_nth c i x : (0 <= i)%Z -> stored_at (Some c) i = Ok x -> nth_error c (Z.to_nat i) = Some x.
Proof.
  intros H E. cbn in E. unfold getE in E. destruct (py_get c i) eqn:G; [|discriminate]. injection E as ->.
  apply py_get_denotes in G. destruct G as [k [[K D] N]]. replace (Z.to_nat i) with k by lia. exact N.
Qed.

Lemma restore_one s c' b rc x :
  selected b rc -> stores_fit b s -> length c' = length (recs b) ->
  (forall c0 j, s = Some c0 -> j <> Z.to_nat (rind b) -> nth_error c' j = nth_error c0 j) ->
  stored_at s (rind b) = Ok x ->
  let c'' := match x with Some y => set_at c' (rind b) (Some y) | None => c' end in
  store_kept s (Some c'') /\ length c'' = length (recs b).
Proof.
  intros S F L K E. pose proof (selected_denotes b rc S) as D. destruct S as [R N].
  assert (G : forall y, length (set_at c' (rind b) y) = length c' /\
     forall j, nth_error (set_at c' (rind b) y) j = if Nat.eq_dec j (Z.to_nat (rind b)) then Some y else nth_error c' j).
  { intros y. apply set_at_nth. now rewrite L. }
  intros c''. split.
  - intros c k y Es Ek. exists c''. split; [reflexivity|]. subst s. apply stored_at_nth in E; [|lia].
    unfold c''. destruct x as [z|].
    + rewrite (proj2 (G (Some z))). destruct (Nat.eq_dec k (Z.to_nat (rind b))) as [->|NE]; [congruence|].
      now rewrite (K c k eq_refl NE).
    + destruct (Nat.eq_dec k (Z.to_nat (rind b))) as [->|NE]; [congruence|]. now rewrite (K c k eq_refl NE).
  - unfold c''. destruct x; [|exact L]. now rewrite (proj1 (G _)).
Qed.

Lemma with_boundaries_spec {A} d orc erc mlts ow (use : list fl -> list fl -> list fl -> res A) :
  paired d orc erc ->
  let h := hemi (d_o d) in
  exists d',
    with_boundaries d mlts false ow use =
      (d', use (lats_of h erc (wrapped mlts)) (lats_of h orc (wrapped (wrapped mlts))) (wrapped (wrapped mlts))) /\
    (exists os es, d' = put_stores d os es) /\ paired d' orc erc /\
    (ow = false \/ originals d = Ok (None, None) ->
     (exists a, use (lats_of h erc (wrapped mlts)) (lats_of h orc (wrapped (wrapped mlts)))
                  (wrapped (wrapped mlts)) = Ok a) -> stores_kept d d').
Proof.
  intros P h. destruct (update_pair_spec d orc erc mlts P) as [os [es [E [Lo [Le [Ko [Ke _]]]]]]].
  assert (PP : forall o e, length o = length (recs (d_o d)) -> length e = length (recs (d_e d)) ->
            paired (put_stores d (Some o) (Some e)) orc erc).
  { intros o e H1 H2. destruct P. constructor; assumption. }
  destruct (stored_at_ok (d_o d) (d_os d) (rind (d_o d)) (p_so _ _ _ P) (ex_intro _ _ (selected_denotes _ _ (p_o _ _ _ P)))) as [x Ex].
  destruct (stored_at_ok (d_e d) (d_es d) (rind (d_e d)) (p_se _ _ _ P) (ex_intro _ _ (selected_denotes _ _ (p_e _ _ _ P)))) as [y Ey].
  assert (O : originals d = Ok (y, x)) by (unfold originals; rewrite Ex, Ey; reflexivity).
  destruct (restore_one (d_os d) os (d_o d) orc x (p_o _ _ _ P) (p_so _ _ _ P) Lo Ko Ex) as [R1 R2].
  destruct (restore_one (d_es d) es (d_e d) erc y (p_e _ _ _ P) (p_se _ _ _ P) Le Ke Ey) as [S1 S2].
  unfold with_boundaries. fold h in E. rewrite E.
  set (u := use _ _ _). destruct ow.
  - exists (put_stores d (Some os) (Some es)). split; [destruct u; reflexivity|].
    split; [eauto|]. split; [now apply PP|]. intros [D|D] _; [discriminate|].
    rewrite O in D. injection D as -> ->. split; assumption.
  - rewrite O. destruct u as [a|e] eqn:U.
    + eexists. split; [reflexivity|].
      assert (Q : restore (put_stores d (Some os) (Some es)) (y, x) =
        put_stores d (Some (match x with Some v => set_at os (rind (d_o d)) (Some v) | None => os end))
                     (Some (match y with Some v => set_at es (rind (d_e d)) (Some v) | None => es end))).
      { destruct x, y; reflexivity. }
      rewrite Q. split; [eauto|]. split; [now apply PP|]. intros _ _. split; assumption.
    + exists (put_stores d (Some os) (Some es)). split; [reflexivity|]. split; [eauto|]. split; [now apply PP|].
      intros _ [a Ea]. discriminate.
Qed.

Lemma lats_of_nth h rc mlts i m : nth_error mlts i = Some m ->
  exists b, nth_error (lats_of h rc mlts) i = Some b /\ boundary_pt h rc m = Ok b.
Proof.
  intros H. destruct (mapE_total (boundary_pt h rc) mlts (boundary_pt_total h rc)) as [bs [E F]].
  unfold lats_of. rewrite E. destruct (forall2_nth _ _ _ _ _ F H) as [b [B1 B2]]. eauto.
Qed.

Lemma lats_of_len h rc mlts : length (lats_of h rc mlts) = length mlts.
Proof.
  destruct (mapE_total (boundary_pt h rc) mlts (boundary_pt_total h rc)) as [bs [E F]].
  unfold lats_of. rewrite E. symmetry. eapply f2_length. exact F.
Qed.

(** ** Arguments *)
Lemma spread_spec lat lt n : dual_args lat lt n ->
  exists la ta, spread lat lt = Ok (mkArr false false true la, mkArr false false true ta) /\
    length la = n /\ length ta = n /\ (0 < n)%nat /\
    forall i, (i < n)%nat -> nth_error la i = Some (belem (el lat) i) /\ nth_error ta i = Some (belem (el lt) i).
Proof.
  intros [I1 [I2 [[N1 Z1] [[N2 Z2] H]]]]. unfold spread.
  assert (P : forall l : list fl, l <> [] -> (0 < length l)%nat) by (intros [|? ?] K; [congruence|cbn; lia]).
  destruct (is0d lat) eqn:D1, (is0d lt) eqn:D2.
  - subst n. specialize (Z1 eq_refl). specialize (Z2 eq_refl). rewrite I1, I2. do 2 eexists. split; [reflexivity|].
    split; [exact Z1|]. split; [exact Z2|]. split; [lia|]. intros i Hi. split; apply nth_belem; lia.
  - subst n. specialize (Z1 eq_refl). rewrite I2. do 2 eexists. split; [reflexivity|].
    split; [apply repeat_length|]. split; [reflexivity|]. split; [now apply P|]. intros i Hi. split; [|apply nth_belem; lia].
    rewrite nth_error_repeat' by exact Hi. destruct (el lat) as [|x [|y l]]; [discriminate|reflexivity|discriminate].
  - subst n. specialize (Z2 eq_refl). rewrite I1. do 2 eexists. split; [reflexivity|].
    split; [reflexivity|]. split; [apply repeat_length|]. split; [now apply P|]. intros i Hi. split; [apply nth_belem; lia|].
    rewrite nth_error_repeat' by exact Hi. destruct (el lt) as [|x [|y l]]; [discriminate|reflexivity|discriminate].
  - destruct H as [H1 H2]. rewrite <- H1, <- H2, Nat.eqb_refl, I1, I2. do 2 eexists. split; [reflexivity|].
    split; [now symmetry|]. split; [now symmetry|]. split; [rewrite H1; now apply P|]. intros i Hi. split; apply nth_belem; lia.
Qed.

Lemma bc2_same {A B} (a : list A) (b : list B) : length a = length b -> (0 < length a)%nat -> bc2 a b = Ok (combine a b).
Proof.
  intros H P. destruct a as [|x [|y a]]; destruct b as [|p [|q b]]; cbn in *; try lia; try reflexivity.
  rewrite (proj2 (Nat.eqb_eq (length a) (length b))) by lia. reflexivity.
Qed.

Lemma normal_coord_same b la ta n rc : current b = Some rc -> length la = n -> length ta = n -> (0 < n)%nat ->
  exists L M C after,
    normal_coord b (mkArr false false true la) (mkArr false false true ta) = Ok (L, M, C, after) /\
    length (el L) = n /\ length (el M) = n /\ length (el C) = n /\ length after = n /\
    forall i v m, nth_error la i = Some v -> nth_error ta i = Some m ->
      wrong_side (hemi b) v = false ->
      exists l mm, nth_error (el L) i = Some l /\ nth_error (el M) i = Some mm /\
        nth_error (el C) i = Some (rfun rc m) /\ nth_error after i = Some v /\
        normal_pt (hemi b) (blat b) rc v m = Ok (l, mm).
Proof.
  intros Hc H1 H2 Hn. unfold normal_coord. rewrite Hc. unfold check_side. cbn [el isint isnd is0d].
  assert (MAIN : forall lats, length lats = n ->
    (forall i v, nth_error la i = Some v -> wrong_side (hemi b) v = false -> nth_error lats i = Some v) ->
    exists L M C after,
    (ps <- bc2 lats ta ;;
     rs <- mapE (fun p => normal_pt (hemi b) (blat b) rc (fst p) (snd p)) ps ;;
     Ok (out (false && false) (map fst rs), out (false && false) (map snd rs), out false (map (rfun rc) ta), lats))
     = Ok (L, M, C, after) /\
    length (el L) = n /\ length (el M) = n /\ length (el C) = n /\ length after = n /\
    forall i v m, nth_error la i = Some v -> nth_error ta i = Some m ->
      wrong_side (hemi b) v = false ->
      exists l mm, nth_error (el L) i = Some l /\ nth_error (el M) i = Some mm /\
        nth_error (el C) i = Some (rfun rc m) /\ nth_error after i = Some v /\
        normal_pt (hemi b) (blat b) rc v m = Ok (l, mm)).
  { intros lats Hl HL. rewrite bc2_same by lia. cbn [bind].
    destruct (mapE_total (fun p => normal_pt (hemi b) (blat b) rc (fst p) (snd p)) (combine lats ta)) as [rs [E F]].
    { intros [x y]. destruct (normal_pt_total (hemi b) (blat b) rc x y) as [l [m [Q _]]]. exists (l, m). exact Q. }
    rewrite E. cbn [bind]. do 4 eexists. split; [reflexivity|]. cbn [el out]. rewrite !map_length.
    pose proof (f2_length _ _ _ F) as FL. rewrite combine_length in FL.
    split; [lia|]. split; [lia|]. split; [lia|]. split; [exact Hl|].
    intros i v m Iv Im W. pose proof (HL i v Iv W) as Il.
    destruct (forall2_nth _ _ _ _ _ F (nth_combine _ _ _ _ _ Il Im)) as [[l mm] [R1 R2]].
    exists l, mm. rewrite !nth_error_map, R1, Im. repeat (split; [reflexivity || assumption|]). exact R2. }
  destruct (existsb (wrong_side (hemi b)) la) eqn:X.
  - destruct (forallb (wrong_side (hemi b)) la) eqn:Y.
    + cbn [bind]. do 4 eexists. split; [reflexivity|]. unfold all_nan. cbn [el out].
      rewrite repeat_length.
      assert (ML : max_len [mkArr false false true la; mkArr false false true ta] = n).
      { cbn. lia. }
      rewrite ML. repeat (split; [reflexivity || assumption|]).
      intros i v m Iv _ W. rewrite forallb_forall in Y. apply nth_error_In in Iv. rewrite (Y _ Iv) in W. discriminate.
    + cbn [bind]. apply MAIN; [now rewrite map_length|]. intros i v Iv W. rewrite nth_error_map, Iv. cbn. now rewrite W.
  - cbn [bind]. apply MAIN; [exact H1|]. intros. assumption.
Qed.

(** ** Dual normal_coord, one element *)
Lemma forallb_isnan_some (l : list fl) i x : nth_error l i = Some (Some x) -> forallb isnan l = false.
Proof.
  intros H. apply not_true_iff_false. intros K. rewrite forallb_forall in K. apply nth_error_In in H.
  specialize (K _ H). discriminate.
Qed.

Lemma wrap_once_shift m : exists m', wrap_once (Some m) = Some m' /\ shifted 24 m m' /\ (0 <= m < 24 -> m' = m).
Proof.
  unfold wrap_once. eexists. split; [reflexivity|].
  destruct (Rlt_dec m 0) as [A|A].
  - destruct (Rle_dec 24 (m + 24)) as [B|B]; [lra|]. split; [exists 1%Z; lra|lra].
  - destruct (Rle_dec 24 m) as [B|B]; split; try lra; [exists (-1)%Z; lra|exists 0%Z; lra].
Qed.

Lemma shifted_trans a b c : shifted 24 a b -> shifted 24 b c -> shifted 24 a c.
Proof. intros [k ->] [j ->]. exists (k + j)%Z. rewrite plus_IZR. lra. Qed.

Lemma wrap_twice_shift m : exists m1 m2, wrap_once (Some m) = Some m1 /\ wrap_once (Some m1) = Some m2 /\
  shifted 24 m m1 /\ shifted 24 m m2 /\ (0 <= m < 24 -> m1 = m /\ m2 = m).
Proof.
  destruct (wrap_once_shift m) as [m1 [E1 [S1 I1]]]. destruct (wrap_once_shift m1) as [m2 [E2 [S2 I2]]].
  exists m1, m2. repeat (split; [assumption|]). split; [eapply shifted_trans; eassumption|].
  intros H. specialize (I1 H). subst m1. split; [reflexivity|now apply I2].
Qed.

Lemma dual_normal_elem d orc erc lat lt n ow i la t :
  paired d orc erc -> dual_args lat lt n -> (i < n)%nat ->
  belem (el lat) i = Some la -> belem (el lt) i = Some t ->
  (hemi (d_o d) = 1%Z \/ hemi (d_o d) = (-1)%Z) -> in_hemisphere (hemi (d_o d)) la ->
  radius_pos orc t ->
  let h := hemi (d_o d) in
  exists d' BL M L C bl mm l flag ob eb m1 m2,
    dual_normal d lat lt ow = (d', Ok (BL, M, L, C)) /\
    paired d' orc erc /\ (exists os es, d' = put_stores d os es) /\
    is0d BL = (is0d lat && is0d lt) /\ is0d M = (is0d lat && is0d lt) /\ is0d C = (is0d lat && is0d lt) /\
    isint BL = false /\ isint M = false /\ isint C = false /\ isnd C = true /\
    length (el BL) = n /\ length (el M) = n /\ length (el C) = n /\
    nth_error (el BL) i = Some bl /\ nth_error (el M) i = Some (Some mm) /\ nth_error (el L) i = Some (Some l) /\
    nth_error (el C) i = Some (rfun orc (Some t)) /\
    normal_pt h (blat (d_o d)) orc (Some la) (Some t) = Ok (Some l, Some mm) /\
    wrap_once (Some t) = Some m1 /\ wrap_once (Some m1) = Some m2 /\
    boundary_pt h orc (Some m2) = Ok ob /\ boundary_pt h erc (Some m1) = Ok eb /\
    bl = bound_lat (blat (d_o d)) (blat (d_e d)) flag (Some la, Some l, (ob, eb)) /\
    let z := is0d lat && is0d lt in
    exists BL' M' L' C', BL = out z BL' /\ M = out z M' /\ L = out z L' /\ C = out z C' /\ length L' = n.
Proof.
  intros P A Hi El Et Hh Hin [c [Hc Hr]] h.
  destruct (spread_spec lat lt n A) as [las [ts [Es [L1 [L2 [N0 NE]]]]]].
  destruct (NE i Hi) as [I1 I2]. rewrite El in I1. rewrite Et in I2.
  pose proof (proj2 (current_selected _ _) (p_o _ _ _ P)) as Cur.
  destruct (normal_coord_same (d_o d) las ts n orc Cur L1 L2 N0) as [L [M [C [after [En [E1 [E2 [E3 [E4 EE]]]]]]]]].
  destruct (EE i _ _ I1 I2 (inside_right _ _ Hh Hin)) as [lo [mm [G1 [G2 [G3 [G4 G5]]]]]].
  destruct (normal_pt_spec h (blat (d_o d)) orc la t c Hc ltac:(lra)) as [m0 [E0 _]].
  fold h in G5. rewrite E0 in G5. injection G5 as <- <-.
  set (l := IZR h * (90 - _)) in *.
  unfold dual_normal. rewrite Es. pose proof (p_range _ _ _ P) as R.
  replace ((d_rec d <? 0) || (d_n d <=? d_rec d))%Z with false
    by (symmetry; apply orb_false_iff; split; [apply Z.ltb_ge; lia|apply Z.leb_gt; lia]).
  rewrite En. rewrite (forallb_isnan_some _ _ _ G1). cbn [el isint].
  set (ow' := ow || _).
  match goal with |- context [with_boundaries d ts false ow' ?u] =>
    destruct (with_boundaries_spec d orc erc ts ow' u P) as [d' [W [[os [es F]] [P' K]]]] end.
  fold h in W. set (eb := lats_of h erc (wrapped ts)) in *. set (ob := lats_of h orc (wrapped (wrapped ts))) in *.
  destruct (wrap_twice_shift t) as [m1 [m2 [T1 [T2 _]]]].
  assert (J1 : nth_error (wrapped ts) i = Some (Some m1)) by (unfold wrapped; rewrite nth_error_map, I2; cbn [option_map]; now rewrite T1).
  assert (J2 : nth_error (wrapped (wrapped ts)) i = Some (Some m2)) by (unfold wrapped at 1; rewrite nth_error_map, J1; cbn [option_map]; now rewrite T2).
  destruct (lats_of_nth h erc _ _ _ J1) as [e [K1 K2]]. destruct (lats_of_nth h orc _ _ _ J2) as [o [K3 K4]].
  fold eb in K1. fold ob in K3.
  pose proof (nth_combine _ _ _ _ _ (nth_combine _ _ _ _ _ G4 G1) (nth_combine _ _ _ _ _ K3 K1)) as PS.
  set (ps := combine (combine after (el L)) (combine ob eb)) in *.
  assert (LP : length ps = n).
  { unfold ps. rewrite !combine_length. unfold ob, eb. rewrite !lats_of_len. unfold wrapped. rewrite !map_length. lia. }
  exists d', (out (is0d lat && is0d lt) (map (bound_lat (blat (d_o d)) (blat (d_e d)) (some_bad (blat (d_o d)) ps)) ps)),
    (out (is0d lat && is0d lt) (el M)), (out (is0d lat && is0d lt) (el L)), (out (is0d lat && is0d lt) (el C)),
    (bound_lat (blat (d_o d)) (blat (d_e d)) (some_bad (blat (d_o d)) ps) (Some la, Some l, (o, e))), m0, l,
    (some_bad (blat (d_o d)) ps), o, e, m1, m2.
  rewrite W. split; [reflexivity|]. split; [exact P'|]. split; [eauto|]. cbn [is0d isint isnd el out].
  do 7 (split; [reflexivity|]). rewrite map_length. split; [exact LP|]. split; [exact E2|]. split; [exact E3|].
  split; [exact (map_nth_error _ i ps PS)|].
  do 8 (split; [reflexivity || assumption|]). split; [reflexivity|].
  do 4 eexists. do 4 (split; [reflexivity|]). exact E1.
Qed.

Lemma update_pair_int d orc erc mlts : paired d orc erc ->
  exists d', update_pair d mlts true (d_rec d) = (d', Err TypeError).
Proof.
  intros P. unfold update_pair. pose proof (p_range _ _ _ P) as R.
  rewrite (py_get_nonneg _ _ _ (proj1 R) (p_oi _ _ _ P)), (py_get_nonneg _ _ _ (proj1 R) (p_ei _ _ _ P)).
  cbn [get_aacgm_boundary_lat isint]. eauto.
Qed.

Lemma with_boundaries_kept {A} d orc erc mlts int (use : list fl -> list fl -> list fl -> res A) d' a :
  paired d orc erc ->
  with_boundaries d mlts int (false || match originals d with Ok (None, None) => true | _ => false end) use = (d', Ok a) ->
  stores_kept d d'.
Proof.
  intros P. cbn [orb]. destruct int.
  - destruct (update_pair_int d orc erc mlts P) as [d2 E]. unfold with_boundaries. rewrite E.
    match goal with |- (match ?x with Ok _ => _ | Err _ => _ end = _) -> _ => destruct x end; discriminate.
  - set (ow := match originals d with Ok _ => _ | Err _ => _ end).
    destruct (with_boundaries_spec d orc erc mlts ow use P) as [d1 [W [_ [_ K]]]]. rewrite W. intros E.
    injection E as <- E. apply K; [|eauto]. unfold ow. destruct (originals d) as [[[x|] [y|]]|]; tauto.
Qed.
