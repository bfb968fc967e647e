(** C168: geographic positions relative to two boundaries. *)
From Coq Require Import Reals ZArith List Bool Lia Lra.
From Verif Require Import PyBase RangeModel RangeSpec RangeProofs PropertiesRange CoordModel CoordSpec CoordProofs CoordProofs2
  PropertiesCoord DualCoordModel DualCoordSpec DualCoordProofs DualCoordProofs2 PropertiesDualCoord DgeoModel DgeoProofs.
Import ListNotations.
Open Scope R_scope.

(** A geographic position (latitude, solar local time) and its magnetic position (latitude,
    MLT) by aacgmv2, at height [hgt], [uth] hours after midnight. *)
Record site := mkSite { g_lat : R; g_slt : R; m_lat : R; m_lt : R }.
Definition located (g : aacgm) (uth : R) (hgt : fl) (p : site) : Prop :=
  exists lon, slt2glon (Some (g_slt p)) uth = Ok (Some lon) /\ to_mag g (Some (g_lat p)) (Some lon) hgt = (Some (m_lat p), Some (m_lt p)).
(** Where its dual coordinates are defined: in the hemisphere, with the EAB equatorward of
    the OCB on its meridian. *)
Definition defined_at (d : dualc) (orc erc : rec) (p : site) (ro : R) : Prop :=
  in_hemisphere (hemi (d_o d)) (m_lat p) /\ mlt_ok orc erc (m_lt p) /\ radius_pos orc (m_lt p) /\
  boundary_at orc (m_lt p) ro /\ exists re, boundary_at erc (m_lt p) re /\ ro < re < 90.
Definition equatorward (d : dualc) (orc erc : rec) (p : site) : Prop :=
  exists ro, defined_at d orc erc p ro /\ ro < colat (hemi (d_o d)) (m_lat p).
Definition in_cap (d : dualc) (orc erc : rec) (p : site) : Prop :=
  exists ro, defined_at d orc erc p ro /\ colat (hemi (d_o d)) (m_lat p) <= ro /\ inside orc (m_lt p) (colat (hemi (d_o d)) (m_lat p)).
(** Scalars, or arrays, holding [xs]. *)
Definition holds (z : bool) (a : arr) (xs : list R) : Prop := is0d a = z /\ isint a = false /\ el a = map Some xs.

Lemma spread3_given z a b xs ys n hgt : holds z a xs -> holds z b ys -> length xs = n -> length ys = n -> (0 < n)%nat -> (z = true -> n = 1%nat) ->
  (z && is0d (sc hgt) = z)%bool /\
  exists ha, spread3 a b (sc hgt) = Ok (mkArr false false true (map Some xs), mkArr false false true (map Some ys), ha) /\ el ha = repeat hgt n.
Proof.
  intros (A1 & A2 & A3) (B1 & B2 & B3) LX LY N Z. split; [destruct z; reflexivity|].
  destruct (spread3_same z (map Some xs) (map Some ys) n hgt) as (ha & S & E); rewrite ?map_length; auto.
  exists ha. split; [|exact E]. rewrite <- S. destruct a as [z1 i1 d1 l1], b as [z2 i2 d2 l2]. cbn in *. subst. destruct z; reflexivity.
Qed.
(** Normalising is converting, then normalising the magnetic positions. *)
Lemma dual_normal_geo_located d orc erc g uth z lat lt ps n hgt ow : paired d orc erc ->
  holds z lat (map g_lat ps) -> holds z lt (map g_slt ps) -> length ps = n -> (0 < n)%nat -> (z = true -> n = 1%nat) ->
  (forall p, In p ps -> located g uth hgt p) ->
  dual_normal_geo d g uth lat lt (sc hgt) ow = dual_normal d (out z (map Some (map m_lat ps))) (out z (map Some (map m_lt ps))) ow.
Proof.
  intros P HL HT LP N Z LOC. destruct (spread3_given z lat lt (map g_lat ps) (map g_slt ps) n hgt) as (ZH & ha & S & E); rewrite ?map_length; auto.
  unfold dual_normal_geo. rewrite S, E. destruct (p_range _ _ _ P) as [R0 R1].
  replace (d_rec d <? 0)%Z with false by (symmetry; apply Z.ltb_ge; lia). replace (d_n d <=? d_rec d)%Z with false by (symmetry; apply Z.leb_gt; lia). cbn [orb el].
  destruct HL as (-> & _), HT as (-> & _). replace (z && z)%bool with z by (destruct z; reflexivity). rewrite ZH.
  assert (M : CoordModel.mapE (fun p => geo_to_mag g uth (fst (fst p)) (snd (fst p)) (snd p)) (zip3 (map Some (map g_lat ps)) (map Some (map g_slt ps)) (repeat hgt n)) = Ok (map (fun p => (Some (m_lat p), Some (m_lt p))) ps)).
  { subst n. clear -LOC. induction ps as [|p ps IH]; [reflexivity|]. cbn [map length repeat zip3 combine CoordModel.mapE fst snd].
    destruct (LOC p (or_introl eq_refl)) as (lon & L1 & L2). unfold geo_to_mag at 1. rewrite L1. cbn [bind]. rewrite L2. unfold zip3 in IH. rewrite IH by (intros q Q; apply LOC; now right). reflexivity. }
  match goal with |- context [CoordModel.mapE ?f ?l] => change (CoordModel.mapE f l) with (CoordModel.mapE (fun p => geo_to_mag g uth (fst (fst p)) (snd (fst p)) (snd p)) (zip3 (map Some (map g_lat ps)) (map Some (map g_slt ps)) (repeat hgt n))) end.
  rewrite M, !map_map. reflexivity.
Qed.
Lemma representative_back slt uth lon lon' s' : shifted 360 ((slt - uth) * 15) lon -> shifted 360 lon lon' -> 0 <= s' < 24 -> shifted 24 (lon' / 15 + uth) s' -> representative 24 0 slt s'.
Proof.
  intros S1 S2 B3 S3. split; [|lra]. eapply RangeProofs.shifted_trans; [|exact S3]. assert (S4 : shifted 360 ((slt - uth) * 15) lon') by exact (RangeProofs.shifted_trans _ _ _ _ S1 S2).
  apply (shifted_scale (/ 15)) in S4. apply (shifted_add uth) in S4.
  replace (360 * / 15) with 24 in S4 by lra. replace ((slt - uth) * 15 * / 15 + uth) with slt in S4 by lra. exact S4.
Qed.
Lemma abs_hemi h x : (h = 1%Z \/ h = (-1)%Z) -> 0 <= IZR h * x -> Rabs x = IZR h * x.
Proof. intros [->| ->] H; [rewrite Rabs_pos_eq|rewrite Rabs_left1]; lra. Qed.
Lemma mag_args z l t n : length l = n -> length t = n -> (0 < n)%nat -> (z = true -> n = 1%nat) -> dual_args (out z (map Some l)) (out z (map Some t)) n.
Proof.
  intros L T N Z. assert (W : forall xs : list R, length xs = n -> wf_arr (out z (map Some xs))).
  { intros xs X. split; cbn [out el is0d]; [destruct xs; [cbn in X; lia|discriminate]|]. rewrite map_length, X. exact Z. }
  split; [reflexivity|]. split; [reflexivity|]. split; [now apply W|]. split; [now apply W|]. cbn [out is0d el]. rewrite !map_length. destruct z; auto.
Qed.
Lemma belem_at (f : site -> R) ps i p : nth_error ps i = Some p -> belem (map Some (map f ps)) i = Some (f p).
Proof.
  intros E. unfold belem. assert (N : nth i (map Some (map f ps)) None = Some (f p)) by (apply nth_error_nth; rewrite map_map, nth_error_map, E; reflexivity).
  destruct (map Some (map f ps)) as [|x [|y l]] eqn:L; try exact N. destruct i as [|i]; [exact N|]. destruct ps as [|q [|r ps]]; try discriminate. destruct i; discriminate.
Qed.

(** What the two magnetic conversions do to the sites. *)
Lemma dual_mag_sites d orc erc z ps n ow ow2 : paired d orc erc -> dual_config d -> length ps = n -> (0 < n)%nat -> (z = true -> n = 1%nat) ->
  (forall p, In p ps -> -90 < m_lat p < 90 /\ (equatorward d orc erc p \/ in_cap d orc erc p)) ->
  exists d' a b c L d'' LA LT,
    dual_normal d (out z (map Some (map m_lat ps))) (out z (map Some (map m_lt ps))) ow = (d', Ok (out z a, out z b, L, out z c)) /\
    paired d' orc erc /\ d_o d' = d_o d /\ d_e d' = d_e d /\ length a = n /\ length b = n /\ length c = n /\
    dual_revert d' (out z a) (out z b) (out z c) false (Some (out z (map Some (map m_lt ps)))) ow2 = (d'', Ok (LA, LT)) /\ (n <= length (el LA))%nat /\
    forall i p, nth_error ps i = Some p ->
      nth_error (el LA) i = Some (Some (m_lat p)) /\ (exists m, nth_error (el LT) i = Some (Some m) /\ shifted 24 (m_lt p) m) /\
      exists v, nth_error a i = Some (Some v) /\ 0 <= IZR (hemi (d_o d)) * v /\
        (equatorward d orc erc p -> IZR (hemi (d_o d)) * v < IZR (hemi (d_o d)) * blat (d_o d)) /\
        (in_cap d orc erc p -> IZR (hemi (d_o d)) * blat (d_o d) <= IZR (hemi (d_o d)) * v).
Proof.
  intros P DC LP N Z SITE. set (lat := out z (map Some (map m_lat ps))). set (lt := out z (map Some (map m_lt ps))).
  assert (DA : dual_args lat lt n) by (apply mag_args; rewrite ?map_length; auto).
  assert (EACH : forall i p, nth_error ps i = Some p -> (i < n)%nat /\ exists ro re, defined_at d orc erc p ro /\ boundary_at erc (m_lt p) re /\ ro < re < 90 /\
     (inside orc (m_lt p) (colat (hemi (d_o d)) (m_lat p)) \/ ro < colat (hemi (d_o d)) (m_lat p)) /\ 0 < colat (hemi (d_o d)) (m_lat p)).
  { intros i p E. split; [rewrite <- LP; apply nth_error_Some; rewrite E; discriminate|]. destruct (SITE p (nth_error_In _ _ E)) as [RA [(ro & D & X)|(ro & D & X & Y)]]; pose proof D as (_ & _ & _ & _ & re & B & R); exists ro, re; (split; [exact D|]; split; [exact B|]; split; [exact R|]; split; [tauto|]; unfold colat; destruct (proj1 DC) as [-> | ->]; lra). }
  assert (EX : exists p0, nth_error ps 0 = Some p0) by (destruct ps as [|p0 ps]; [cbn in LP; lia|exists p0; reflexivity]). destruct EX as [p0 E0].
  assert (RT : forall i p, nth_error ps i = Some p -> exists d' BL M L C d'' LA LT,
      dual_normal d lat lt ow = (d', Ok (BL, M, L, C)) /\ dual_revert d' BL M C false (Some lt) ow2 = (d'', Ok (LA, LT)) /\
      nth_error (el LA) i = Some (Some (m_lat p)) /\ exists m, nth_error (el LT) i = Some (Some m) /\ shifted 24 (m_lt p) m).
  { intros i p E. destruct (EACH i p E) as (I & ro & re & (D1 & D2 & D3 & D4 & _) & B & R & REG & C0).
    destruct (C38_dual_round_trip d orc erc lat lt n ow ow2 i (m_lat p) (m_lt p) ro re P DC DA I (belem_at m_lat ps i p E) (belem_at m_lt ps i p E) D1 (Rlt_le _ _ C0) D2 D3 D4 B R REG)
      as (d' & BL & M & L & C & d'' & LA & LT & Q1 & Q2 & Q3 & Q4). destruct (Q4 C0) as (m & Q5 & Q6 & _). exists d', BL, M, L, C, d'', LA, LT. eauto 10. }
  destruct (RT 0%nat p0 E0) as (d' & BL & M & L & C & d'' & LA & LT & Q1 & Q2 & Q3 & Q4).
  destruct (EACH 0%nat p0 E0) as (I0 & ro0 & re0 & (D1 & D2 & D3 & D4 & _) & B0 & R0 & REG0 & C0).
  destruct (dual_normal_elem d orc erc lat lt n ow 0 (m_lat p0) (m_lt p0) P DA I0 (belem_at m_lat ps 0 p0 E0) (belem_at m_lt ps 0 p0 E0) (proj1 DC) D1 D3)
    as (d1 & BL1 & M1 & L1 & C1 & bl & mm & l & flag & ob & eb & m1 & m2 & EQ & P' & (os & es & D') & ZB & ZM & ZC & NB & NM & NC & NDC & LB & LM & LC & _).
  rewrite Q1 in EQ. injection EQ as <- <- <- <- <-. assert (ZZ : (is0d lat && is0d lt = z)%bool) by (cbn; destruct z; reflexivity). rewrite ZZ in ZB, ZM, ZC.
  assert (ALL : forall i p, nth_error ps i = Some p -> nth_error (el LA) i = Some (Some (m_lat p)) /\ exists m, nth_error (el LT) i = Some (Some m) /\ shifted 24 (m_lt p) m).
  { intros i p E. destruct (RT i p E) as (e1 & e2 & e3 & e4 & e5 & e6 & e7 & e8 & T1 & T2 & T3 & T4). rewrite Q1 in T1. injection T1 as <- <- <- <- <-. rewrite Q2 in T2. injection T2 as <- <- <-. auto. }
  exists d', (el BL), (el M), (el C), L, d'', LA, LT.
  assert (SH : dual_revert d' (out z (el BL)) (out z (el M)) (out z (el C)) false (Some lt) ow2 = dual_revert d' BL M C false (Some lt) ow2).
  { destruct BL as [zb ib nb lb], M as [zm im nm lm], C as [zc ic nc lc]. cbn in *. subst. reflexivity. }
  split.
  { rewrite Q1. do 2 f_equal.
    assert (NDB : isnd BL = true /\ isnd M = true).
    { clear -Q1. unfold dual_normal in Q1. destruct (spread lat lt) as [[la ta]|]; [|discriminate]. destruct (_ || _)%Z; [injection Q1 as _ <- <- _ _; split; reflexivity|].
      destruct (normal_coord _ _ _) as [[[[L' M'] C'] after]|]; [|discriminate]. destruct (forallb isnan (el L')); [injection Q1 as _ <- <- _ _; split; reflexivity|].
      unfold with_boundaries in Q1. destruct (if (ow || _)%bool then _ else _) as [o|]; [|discriminate]. destruct (update_pair d (el ta) _ (d_rec d)) as [dd [[[eb ob] mq]|]]; [|discriminate].
      injection Q1 as _ <- <- _ _; split; reflexivity. }
    destruct BL as [zb ib nb lb], M as [zm im nm lm], C as [zc ic nc lc]. cbn in *. destruct NDB. subst. reflexivity. }
  split; [exact P'|]. split; [rewrite D'; reflexivity|]. split; [rewrite D'; reflexivity|]. split; [exact LB|]. split; [exact LM|]. split; [exact LC|].
  split; [rewrite SH; exact Q2|]. split.
  { destruct (nth_error ps (n - 1)) as [p|] eqn:E; [|apply nth_error_None in E; lia]. destruct (ALL _ _ E) as [X _]. assert (K : (n - 1 < length (el LA))%nat) by (apply nth_error_Some; rewrite X; discriminate). lia. }
  intros i p E. destruct (ALL i p E) as [X Y]. split; [exact X|]. split; [exact Y|].
  destruct (SITE p (nth_error_In _ _ E)) as [RA KIND].
  assert (HALF : forall ro, defined_at d orc erc p ro -> exists v, nth_error (el BL) i = Some (Some v) /\
     (ro < colat (hemi (d_o d)) (m_lat p) -> 0 <= IZR (hemi (d_o d)) * v < IZR (hemi (d_o d)) * blat (d_o d)) /\
     (colat (hemi (d_o d)) (m_lat p) <= ro -> inside orc (m_lt p) (colat (hemi (d_o d)) (m_lat p)) -> IZR (hemi (d_o d)) * blat (d_o d) <= IZR (hemi (d_o d)) * v)).
  { intros ro (F1 & F2 & F3 & F4 & re & F5 & F6 & F7).
    destruct (C37_dual_normal_regions_partial d orc erc lat lt n ow i (m_lat p) (m_lt p) ro re P DC DA (proj1 (EACH i p E)) (belem_at m_lat ps i p E) (belem_at m_lt ps i p E) F1 F2 F3 F4 F5 (conj F6 F7))
      as (e1 & e2 & e3 & e4 & e5 & T1 & LBL & _ & _ & V1 & V2 & V3). rewrite Q1 in T1. injection T1 as <- <- <- <- <-.
    destruct (nth_error (el BL) i) as [x|] eqn:NB0; [|apply nth_error_None in NB0; pose proof (proj1 (EACH i p E)); lia].
    destruct DC as (Hh & He & DE0 & DE1 & DE2). unfold in_hemisphere in F1. set (h := IZR (hemi (d_o d))) in *. assert (CX : colat (hemi (d_o d)) (m_lat p) < 90) by (unfold colat; fold h; lra).
    set (x0 := colat (hemi (d_o d)) (m_lat p)) in *.
    destruct (Rlt_dec ro x0) as [O|O].
    - destruct (Rle_dec x0 re) as [Q|Q].
      + destruct (V2 (conj (Rlt_le _ _ O) Q)) as (v & W1 & W2). exists v. split; [exact W1|]. split; [intros _|lra].
        split; [assert (0 <= (h * v - h * blat (d_e d))) by (apply (Rmult_le_reg_r (re - ro)); [lra|]; rewrite W2, Rmult_0_l; apply Rmult_le_pos; lra); lra|].
        apply (Rplus_lt_reg_r (- (h * blat (d_e d)))). apply (Rmult_lt_reg_r (re - ro)); [lra|]. replace ((h * v + - (h * blat (d_e d))) * (re - ro)) with ((h * v - h * blat (d_e d)) * (re - ro)) by ring. rewrite W2.
        apply Rmult_lt_compat_l; lra.
      + destruct (V3 ltac:(lra)) as (v & W1 & W2). exists v. split; [exact W1|]. split; [intros _|lra].
        split; [apply (Rmult_le_reg_r (90 - re)); [lra|]; rewrite W2, Rmult_0_l; apply Rmult_le_pos; lra|].
        apply Rle_lt_trans with (h * blat (d_e d)); [|lra].
        apply (Rmult_le_reg_r (90 - re)); [lra|]. rewrite W2. apply Rmult_le_compat_l; lra.
    - destruct x as [v|].
      + exists v. split; [reflexivity|]. split; [lra|]. intros _ IN. destruct (V1 ltac:(lra) IN) as (v' & W1 & _ & W2). injection W1 as ->. lra.
      + destruct KIND as [(ro' & (G1 & G2 & G3 & G4 & _) & G5)|(ro' & (G1 & G2 & G3 & G4 & _) & G5 & G6)].
        * fold x0 in G5. destruct F4 as (c1 & K1 & K2 & K3), G4 as (c2 & K4 & K5 & K6). rewrite K1 in K4. injection K4 as <-. pose proof (K3 _ K5). pose proof (K6 _ K2). lra.
        * destruct (V1 ltac:(lra) G6) as (v' & W1 & _). discriminate W1. }
  destruct KIND as [(ro & D & G)|(ro & D & G & IN)]; destruct (HALF ro D) as (v & W1 & W2 & W3); exists v; (split; [exact W1|]).
  - split; [apply W2, G|]. split; [intros _; apply W2, G|]. intros (ro' & DD & G' & IN'). exfalso.
    destruct D as (_ & _ & _ & (c1 & K1 & K2 & K3) & _), DD as (_ & _ & _ & (c2 & K4 & K5 & K6) & _). rewrite K1 in K4. injection K4 as <-. pose proof (K3 _ K5). pose proof (K6 _ K2). lra.
  - destruct DC as (Hh & He & DE0 & DE1 & DE2). pose proof (W3 G IN). split; [lra|]. split; [|intros _; assumption]. intros (ro' & DD & G'). exfalso.
    destruct D as (_ & _ & _ & (c1 & K1 & K2 & K3) & _), DD as (_ & _ & _ & (c2 & K4 & K5 & K6) & _). rewrite K1 in K4. injection K4 as <-. pose proof (K3 _ K5). pose proof (K6 _ K2). lra.
Qed.

(** ** C168 *)
Theorem C168_geographic_round_trip_partial :
  forall d orc erc g uth z lat slt ps hgt ow ow2,
    paired d orc erc -> dual_config d -> aacgm_inverse g ->
    (* one position, or an array of them, at one height *)
    holds z lat (map g_lat ps) -> holds z slt (map g_slt ps) -> (0 < length ps)%nat -> (z = true -> length ps = 1%nat) ->
    (forall p, In p ps -> located g uth hgt p /\ -90 < m_lat p < 90) ->
    (* all equatorward of the OCB, or all in the polar cap *)
    (forall p, In p ps -> equatorward d orc erc p) \/ (forall p, In p ps -> in_cap d orc erc p) ->
    exists d' BL M L C d'' LA LT,
      dual_normal_geo d g uth lat slt (sc hgt) ow = (d', Ok (BL, M, L, C)) /\
      dual_revert_geo d' g uth BL M C (sc hgt) false (Some (out z (map (fun p => Some (m_lt p)) ps))) ow2 = (d'', Ok (LA, LT)) /\
      forall i p, nth_error ps i = Some p ->
        nth_error (el LA) i = Some (Some (g_lat p)) /\ exists s, nth_error (el LT) i = Some (Some s) /\ representative 24 0 (g_slt p) s.
Proof.
  intros d orc erc g uth z lat slt ps hgt ow ow2 P DC Inv HL HT N Z LOC KIND.
  destruct (dual_mag_sites d orc erc z ps (length ps) ow ow2 P DC eq_refl N Z) as (d' & a & b & c & L & d'' & LA & LT & Q1 & P' & O & E & L1 & L2 & L3 & Q2 & LN & ALL).
  { intros p I. split; [apply LOC, I|]. destruct KIND as [K|K]; [left|right]; apply K, I. }
  pose proof DC as (Hh & He & DE0 & DE1 & DE2).
  assert (AB : Rabs (blat (d_e d')) <= Rabs (blat (d_o d'))) by (rewrite O, E, (abs_hemi _ _ Hh), (abs_hemi _ _ Hh); lra).
  assert (AT : forall v, In v a -> exists i p, nth_error ps i = Some p /\ nth_error a i = Some v).
  { intros v I. apply In_nth_error in I. destruct I as [i I]. assert (K : (i < length ps)%nat) by (rewrite <- L1; apply nth_error_Some; rewrite I; discriminate).
    destruct (nth_error ps i) as [p|] eqn:EP; [eauto|]. apply nth_error_None in EP. lia. }
  assert (REG : forallb (fun v => abs_lt v (Some (blat (d_o d')))) a = true \/
     forallb (fun v => abs_ge v (Some (blat (d_o d')))) a = true /\ forallb (wrong_side (hemi (d_o d'))) a = false).
  { rewrite O. destruct KIND as [K|K]; [left|right; split].
    - apply forallb_forall. intros v I. destruct (AT v I) as (i & p & EP & EV). destruct (ALL i p EP) as (_ & _ & w & W1 & W2 & W3 & _). rewrite EV in W1. injection W1 as ->.
      unfold abs_lt. specialize (W3 (K p (nth_error_In _ _ EP))). rewrite (abs_hemi _ _ Hh W2), (abs_hemi _ _ Hh) by lra. destruct (Rlt_dec _ _); [reflexivity|contradiction].
    - apply forallb_forall. intros v I. destruct (AT v I) as (i & p & EP & EV). destruct (ALL i p EP) as (_ & _ & w & W1 & W2 & _ & W3). rewrite EV in W1. injection W1 as ->.
      unfold abs_ge. specialize (W3 (K p (nth_error_In _ _ EP))). rewrite (abs_hemi _ _ Hh W2), (abs_hemi _ _ Hh) by lra. destruct (Rle_dec _ _); [reflexivity|contradiction].
    - destruct a as [|v a]; [cbn in L1; lia|]. destruct (AT v (or_introl eq_refl)) as (i & p & EP & EV). destruct (ALL i p EP) as (_ & _ & w & W1 & W2 & _ & W3). rewrite EV in W1. injection W1 as ->.
      specialize (W3 (K p (nth_error_In _ _ EP))). cbn [forallb]. rewrite (inside_right _ _ Hh); [reflexivity|]. unfold in_hemisphere. lra. }
  destruct (dual_revert_geo_of d' orc erc g uth z a b c _ (length ps) hgt ow2 d'' LA LT P' AB L1 L2 L3 N Z Q2 LN REG) as (rs & R1 & R2 & R3).
  exists d', (out z a), (out z b), L, (out z c), d'', (out z (map fst rs)), (out z (map snd rs)).
  split; [rewrite (dual_normal_geo_located d orc erc g uth z lat slt ps (length ps) hgt ow P HL HT eq_refl N Z) by (intros p I; apply LOC, I); exact Q1|].
  split; [rewrite map_map in R1; exact R1|]. intros i p EP. destruct (ALL i p EP) as (X & (m & Y & S) & _).
  assert (K : (i < length ps)%nat) by (apply nth_error_Some; rewrite EP; discriminate).
  destruct (LOC p (nth_error_In _ _ EP)) as [(lon & S1 & T) _]. destruct (Inv _ _ _ _ _ m T S) as (lon' & T2 & S2).
  destruct (C20_slt2glon_spec (g_slt p) uth) as [lon2 [E1 [_ S3]]]. rewrite S1 in E1. injection E1 as <-.
  destruct (C20_glon2slt_spec lon' uth) as [s' [E3 [B3 S4]]].
  assert (GO : geo_of g uth (Some (m_lat p), Some m, hgt) = (Some (g_lat p), Some s')) by (unfold geo_of, mag_to_geo; cbn [fst snd]; rewrite T2, E3; reflexivity).
  assert (RI : nth_error rs i = Some (Some (g_lat p), Some s')) by (etransitivity; [exact (R3 i _ _ X Y K)|exact (f_equal Some GO)]).
  cbn [out el]. rewrite !nth_error_map, RI. split; [reflexivity|]. exists s'. split; [reflexivity|]. exact (representative_back _ _ _ _ _ S3 S2 B3 S4).
Qed.

(** Positions on both sides of the OCB in one call: their magnetic coordinates are
    reverted, their geographic ones are a ValueError. *)
Theorem C168_both_sides_refuted :
  forall d orc erc g uth lat slt ps hgt ow ow2,
    paired d orc erc -> dual_config d ->
    holds false lat (map g_lat ps) -> holds false slt (map g_slt ps) ->
    (forall p, In p ps -> located g uth hgt p /\ -90 < m_lat p < 90 /\ (equatorward d orc erc p \/ in_cap d orc erc p)) ->
    (exists p, In p ps /\ equatorward d orc erc p) -> (exists p, In p ps /\ in_cap d orc erc p) ->
    exists d' BL M L C d'',
      dual_normal_geo d g uth lat slt (sc hgt) ow = (d', Ok (BL, M, L, C)) /\
      (exists LA LT, dual_revert d' BL M C false (Some (out false (map (fun p => Some (m_lt p)) ps))) ow2 = (d'', Ok (LA, LT)) /\
         forall i p, nth_error ps i = Some p -> nth_error (el LA) i = Some (Some (m_lat p))) /\
      dual_revert_geo d' g uth BL M C (sc hgt) false (Some (out false (map (fun p => Some (m_lt p)) ps))) ow2 = (d'', Err ValueError).
Proof.
  intros d orc erc g uth lat slt ps hgt ow ow2 P DC HL HT LOC (pe & PE & EQ) (pc & PC & CA).
  assert (N : (0 < length ps)%nat) by (destruct ps; [destruct PE|cbn; lia]). assert (Z : false = true -> length ps = 1%nat) by discriminate.
  destruct (dual_mag_sites d orc erc false ps (length ps) ow ow2 P DC eq_refl N Z) as (d' & a & b & c & L & d'' & LA & LT & Q1 & P' & O & E & L1 & L2 & L3 & Q2 & LN & ALL).
  { intros p I. destruct (LOC p I) as (_ & K). exact K. }
  pose proof DC as (Hh & He & DE0 & DE1 & DE2).
  assert (AB : Rabs (blat (d_e d')) <= Rabs (blat (d_o d'))) by (rewrite O, E, (abs_hemi _ _ Hh), (abs_hemi _ _ Hh); lra).
  destruct (spread3_same false a b (length ps) hgt L1 L2 N Z) as (ha & S3 & EH).
  exists d', (out false a), (out false b), L, (out false c), d''.
  split; [rewrite (dual_normal_geo_located d orc erc g uth false lat slt ps (length ps) hgt ow P HL HT eq_refl N Z) by (intros p I; apply LOC, I); exact Q1|].
  rewrite map_map in Q2. split; [exists LA, LT; split; [exact Q2|]; intros i p EP; apply (ALL i p EP)|].
  apply (dual_revert_geo_mixed d' orc erc g uth false a b c _ (length ps) (sc hgt) (repeat hgt (length ps)) ow2 d'' LA LT P' AB L1 L2 L3 N Z); eauto using repeat_length.
  - apply not_true_is_false. intros F. rewrite forallb_forall in F. apply In_nth_error in PC. destruct PC as [i EP]. destruct (ALL i pc EP) as (_ & _ & v & W1 & W2 & _ & W3). specialize (W3 CA).
    specialize (F _ (nth_error_In _ _ W1)). unfold abs_lt in F. rewrite O, (abs_hemi _ _ Hh W2), (abs_hemi _ _ Hh) in F by lra. destruct (Rlt_dec _ _) in F; [lra|discriminate].
  - apply not_true_is_false. intros F. rewrite forallb_forall in F. apply In_nth_error in PE. destruct PE as [i EP]. destruct (ALL i pe EP) as (_ & _ & v & W1 & W2 & W3 & _). specialize (W3 EQ).
    specialize (F _ (nth_error_In _ _ W1)). unfold abs_ge in F. rewrite O, (abs_hemi _ _ Hh W2), (abs_hemi _ _ Hh) in F by lra. destruct (Rle_dec _ _) in F; [lra|discriminate].
Qed.

Lemma noon_lon : slt2glon (Some 0) 0 = Ok (Some 0).
Proof.
  destruct (C20_slt2glon_spec 0 0) as [g (E & B & k & S)]. rewrite E. do 2 f_equal. replace ((0 - 0) * 15) with 0 in S by ring.
  assert (K : (k = 0)%Z).
  { assert (A : (-1 < k)%Z) by (apply lt_IZR; lra). assert (A2 : (k < 1)%Z) by (apply lt_IZR; lra). lia. }
  subst k. lra.
Qed.
(** The height of each position is not kept with it: where positions between the boundaries
    follow positions equatorward of both, aacgmv2 is given the heights of other positions. *)
Definition aacgmh : aacgm :=
  mkAacgm (fun la lo h => (fmap2 Rminus la h, fmap (fun l => l / 15) lo)) (fun m => fmap (fun x => x * 15) m) (fun la lo h => (fmap2 Rplus la h, lo)).
Lemma aacgmh_inverse : aacgm_inverse aacgmh.
Proof.
  intros lat lon hgt a m m' E S. cbn in E. destruct hgt as [h|]; [|discriminate]. injection E as <- <-. cbn. exists (m' * 15). split; [do 2 f_equal; lra|].
  apply (shifted_scale 15) in S. replace (24 * 15) with 360 in S by lra. replace (lon / 15 * 15) with lon in S by lra. exact S.
Qed.
Theorem C168_heights_refuted :
  exists d orc erc g uth lat slt heights mlts d' BL M L C d'' LA LT,
    paired d orc erc /\ dual_config d /\ aacgm_inverse g /\
    dual_normal_geo d g uth lat slt heights false = (d', Ok (BL, M, L, C)) /\
    (* the MLT that aacgmv2 gives *)
    (forall i x s h, nth_error (el lat) i = Some x -> nth_error (el slt) i = Some s -> nth_error (el heights) i = Some h ->
       exists a m, geo_to_mag g uth x s h = Ok (a, m) /\ nth_error (el mlts) i = Some m) /\
    dual_revert_geo d' g uth BL M C heights false (Some mlts) false = (d'', Ok (LA, LT)) /\
    el lat = [Some 30; Some 66] /\ el LA = [Some 31; Some 65].
Proof.
  destruct dual1_ok as [P [DC [B1 [B2 [MO RP]]]]].
  set (ps := [mkSite 30 0 29 0; mkSite 66 0 64 0]).
  assert (SITE : forall p, In p ps -> equatorward dual1 rec1 erec1 p).
  { intros p [<-|[<-|[]]]; exists 24; (split; [split; [unfold in_hemisphere; cbn; lra|]; split; [exact MO|]; split; [exact RP|]; split; [exact B1|]; exists 28; split; [exact B2|lra]|unfold colat; cbn; lra]). }
  destruct (dual_mag_sites dual1 rec1 erec1 false ps 2 false false P DC eq_refl ltac:(lia) ltac:(discriminate)) as (d' & a & b & c & L & d'' & LA & LT & Q1 & P' & O & E & L1 & L2 & L3 & Q2 & LN & ALL).
  { intros p I. split; [destruct I as [<-|[<-|[]]]; cbn; lra|left; apply SITE, I]. }
  assert (DA : dual_args (out false (map Some (map m_lat ps))) (out false (map Some (map m_lt ps))) 2) by (apply mag_args; (reflexivity || lia || discriminate)).
  assert (A0 : nth_error a 0 = Some (Some (64 * 29 / 62))).
  { destruct (C37_dual_normal_regions_partial dual1 rec1 erec1 _ _ 2 false 0 29 0 24 28 P DC DA) as [e1 [e2 [e3 [e4 [e5 [T [_ [_ [_ [_ [_ V]]]]]]]]]]]; try assumption; try reflexivity; try lia; try lra; [unfold in_hemisphere; cbn; lra|].
    rewrite Q1 in T. injection T as <- <- <- _ <-. destruct V as (v & V1 & V2); [unfold colat; cbn; lra|]. etransitivity; [exact V1|]. do 2 f_equal. unfold colat in V2. cbn in V2. lra. }
  assert (A1 : nth_error a 1 = Some (Some 69)).
  { destruct (C37_dual_normal_regions_partial dual1 rec1 erec1 _ _ 2 false 1 64 0 24 28 P DC DA) as [e1 [e2 [e3 [e4 [e5 [T [_ [_ [_ [_ [V _]]]]]]]]]]]; try assumption; try reflexivity; try lia; try lra; [unfold in_hemisphere; cbn; lra|].
    rewrite Q1 in T. injection T as <- <- <- _ <-. destruct V as (v & V1 & V2); [unfold colat; cbn; lra|]. etransitivity; [exact V1|]. do 2 f_equal. unfold colat in V2. cbn in V2. lra. }
  destruct a as [|x [|y [|]]]; cbn in L1; try lia. cbn in A0, A1. injection A0 as ->. injection A1 as ->.
  destruct b as [|b0 [|b1 [|]]]; cbn in L2; try lia.
  assert (AB : Rabs (blat (d_e d')) <= Rabs (blat (d_o d'))) by (rewrite O, E; cbn; rewrite !Rabs_pos_eq; lra).
  set (hts := mkArr false false true [Some 1; Some 2]).
  assert (OUT : forallb (fun v => abs_lt v (Some (blat (d_o d')))) [Some (64 * 29 / 62); Some 69] = true).
  { rewrite O. cbn. rewrite !Rabs_pos_eq by lra. destruct (Rlt_dec (64 * 29 / 62) 74); [|lra]. destruct (Rlt_dec 69 74); [reflexivity|lra]. }
  destruct (dual_revert_geo_out d' rec1 erec1 aacgmh 0 false [Some (64 * 29 / 62); Some 69] [b0; b1] c (Some (out false (map Some (map m_lt ps)))) 2 hts [Some 1; Some 2] false d'' LA LT P' AB eq_refl eq_refl L3 ltac:(lia) ltac:(discriminate)) as (LL & LTL & R); try assumption; try reflexivity.
  { eexists. split; [reflexivity|reflexivity]. }
  destruct (ALL 0%nat _ eq_refl) as (X0 & (m0 & Y0 & _) & _). destruct (ALL 1%nat _ eq_refl) as (X1 & (m1 & Y1 & _) & _). cbn [m_lat] in X0, X1.
  destruct (el LA) as [|la0 [|la1 [|]]]; cbn in LL; try lia. destruct (el LT) as [|t0 [|t1 [|]]]; cbn in LTL; try lia.
  cbn in X0, X1, Y0, Y1. injection X0 as ->. injection X1 as ->. injection Y0 as ->. injection Y1 as ->.
  assert (R' : outside_to_geo aacgmh 0 (blat (d_o d')) (blat (d_e d')) [Some (64 * 29 / 62); Some 69] [Some 1; Some 2] (combine [Some 29; Some 64] [Some m0; Some m1]) [Some m0; Some m1]
               = Ok [geo_of aacgmh 0 (Some 29, Some m0, Some 2); geo_of aacgmh 0 (Some 64, Some m1, Some 1)]).
  { unfold outside_to_geo. rewrite O, E.
    assert (W1 : where_ (in_mid (blat (d_o dual1)) (blat (d_e dual1))) [Some (64 * 29 / 62); Some 69] = [1%nat]).
    { unfold where_, in_mid, abs_lt, abs_ge. cbn [length seq combine filter snd blat d_o d_e dual1]. rewrite !Rabs_pos_eq by lra.
      destruct (Rlt_dec (64 * 29 / 62) 74); [|lra]. destruct (Rle_dec 64 (64 * 29 / 62)); [lra|]. destruct (Rlt_dec 69 74); [|lra]. destruct (Rle_dec 64 69); [|lra]. reflexivity. }
    assert (W2 : where_ (in_out (blat (d_e dual1))) [Some (64 * 29 / 62); Some 69] = [0%nat]).
    { unfold where_, in_out, abs_lt. cbn [length seq combine filter snd blat d_o d_e dual1]. rewrite !Rabs_pos_eq by lra.
      destruct (Rlt_dec (64 * 29 / 62) 64); [|lra]. destruct (Rlt_dec 69 64); [lra|]. reflexivity. }
    rewrite W1, W2. cbn [app map nth combine fst]. rewrite to_geo_arr_ok by reflexivity. reflexivity. }
  assert (G : forall l m h, exists s, geo_of aacgmh 0 (Some l, Some m, Some h) = (Some (l + h), s)).
  { intros l m h. unfold geo_of, mag_to_geo. cbn [fst snd to_geo mlt2lon aacgmh fmap fmap2]. destruct (C20_glon2slt_spec (m * 15) 0) as [s' [E3 _]]. exists (Some s').
    change ((match (s0 <- glon2slt (Some (m * 15)) 0 ;; Ok (Some (l + h), s0)) with Ok q => q | Err _ => (None, None) end) = (Some (l + h), Some s')). rewrite E3. reflexivity. }
  destruct (G 29 m0 2) as [s0 G0]. destruct (G 64 m1 1) as [s1 G1].
  match type of R with _ = (_, bind ?u _) => assert (RU : u = Ok [(Some (29 + 2), s0); (Some (64 + 1), s1)]) by (etransitivity; [exact R'|]; rewrite G0, G1; reflexivity); rewrite RU in R end. cbn [bind] in R.
  exists dual1, rec1, erec1, aacgmh, 0, (mkArr false false true [Some 30; Some 66]), (mkArr false false true [Some 0; Some 0]), hts, (out false (map Some (map m_lt ps))).
  do 5 eexists. do 3 eexists. split; [exact P|]. split; [exact DC|]. split; [exact aacgmh_inverse|]. split.
  { unfold dual_normal_geo. cbn -[slt2glon dual_normal]. unfold geo_to_mag. rewrite noon_lon. cbn -[slt2glon dual_normal].
    replace (30 - 1) with 29 by lra. replace (66 - 2) with 64 by lra. replace (0 / 15) with 0 by lra. exact Q1. }
  split.
  { intros i x s h X S H. assert (ES : s = Some 0) by (destruct i as [|[|i]]; cbn in S; [congruence|congruence|destruct i; discriminate]). subst s.
    unfold geo_to_mag. rewrite noon_lon. cbn [bind]. do 2 eexists. split; [apply f_equal, surjective_pairing|]. assert (D15 : fmap (fun l => l / 15) (Some 0) = Some 0) by (cbn; f_equal; lra).
    destruct i as [|[|i]]; [exact (f_equal Some (eq_sym D15))|exact (f_equal Some (eq_sym D15))|destruct i; discriminate]. }
  split; [exact R|]. split; [reflexivity|]. cbn [out el map fst]. repeat f_equal; lra.
Qed.

(** With [aacgm0], at midnight and 0 UT, latitudes 64 and 30 lie between the boundaries and
    equatorward of both, 80 in the polar cap. *)
Definition p64 := mkSite 64 0 64 0.
Definition p30 := mkSite 30 0 30 0.
Definition p80 := mkSite 80 0 80 0.
Lemma sites1 : (forall p, In p [p64; p30; p80] -> located aacgm0 0 (Some 100) p /\ -90 < m_lat p < 90) /\
  equatorward dual1 rec1 erec1 p64 /\ equatorward dual1 rec1 erec1 p30 /\ in_cap dual1 rec1 erec1 p80.
Proof.
  destruct dual1_ok as [P [DC [B1 [B2 [MO RP]]]]].
  assert (D : forall p, m_lt p = 0 -> 0 < m_lat p -> defined_at dual1 rec1 erec1 p 24).
  { intros [a b c t] E L. cbn in *. subst t. split; [unfold in_hemisphere; cbn; lra|]. split; [exact MO|]. split; [exact RP|]. split; [exact B1|]. exists 28. split; [exact B2|lra]. }
  split; [|split; [|split]].
  - intros p [<-|[<-|[<-|[]]]]; (split; [exists 0; split; [exact noon_lon|]; cbn; repeat (destruct (Rlt_dec _ _); [|lra]); do 2 f_equal; lra|cbn; lra]).
  - exists 24. split; [apply D; cbn; lra|unfold colat; cbn; lra].
  - exists 24. split; [apply D; cbn; lra|unfold colat; cbn; lra].
  - exists 24. split; [apply D; cbn; lra|]. split; [unfold colat; cbn; lra|]. exists 2. split; [reflexivity|]. unfold colat. cbn [hemi d_o dual1 rr rec1 m_lat m_lt p80].
    unfold dist, point, centre. cbn [fst snd rcent phic rec1]. replace (0 * PI / 12) with 0 by field. replace (0 * PI / 180) with 0 by field. rewrite cos_0, sin_0.
    replace (((90 - 1 * 80) * 1 - 4 * 1) ^ 2 + ((90 - 1 * 80) * 0 - 4 * 0) ^ 2) with (6 * 6) by ring. rewrite sqrt_square by lra. lra.
Qed.
Example C168_case : exists d' BL M L C d'' LA LT,
  dual_normal_geo dual1 aacgm0 0 (out false [Some 64; Some 30]) (out false [Some 0; Some 0]) (sc (Some 100)) false = (d', Ok (BL, M, L, C)) /\
  dual_revert_geo d' aacgm0 0 BL M C (sc (Some 100)) false (Some (out false [Some 0; Some 0])) false = (d'', Ok (LA, LT)) /\
  nth_error (el LA) 0 = Some (Some 64) /\ nth_error (el LA) 1 = Some (Some 30).
Proof.
  destruct dual1_ok as [P [DC _]]. destruct sites1 as (S & E1 & E2 & _).
  destruct (C168_geographic_round_trip_partial dual1 rec1 erec1 aacgm0 0 false (out false [Some 64; Some 30]) (out false [Some 0; Some 0]) [p64; p30] (Some 100) false false P DC (proj1 C80_case))
    as (d' & BL & M & L & C & d'' & LA & LT & Q1 & Q2 & Q3); try (repeat split; reflexivity); try (cbn; lia); try discriminate.
  - intros p I. apply S. cbn in *. tauto.
  - left. intros p [<-|[<-|[]]]; assumption.
  - exists d', BL, M, L, C, d'', LA, LT. split; [exact Q1|]. split; [exact Q2|]. split; [apply (Q3 0%nat p64 eq_refl)|apply (Q3 1%nat p30 eq_refl)].
Qed.
Example C168_both_case : exists d' BL M L C d'',
  dual_normal_geo dual1 aacgm0 0 (out false [Some 64; Some 80]) (out false [Some 0; Some 0]) (sc (Some 100)) false = (d', Ok (BL, M, L, C)) /\
  dual_revert_geo d' aacgm0 0 BL M C (sc (Some 100)) false (Some (out false [Some 0; Some 0])) false = (d'', Err ValueError).
Proof.
  destruct dual1_ok as [P [DC _]]. destruct sites1 as (S & E1 & E2 & E3).
  destruct (C168_both_sides_refuted dual1 rec1 erec1 aacgm0 0 (out false [Some 64; Some 80]) (out false [Some 0; Some 0]) [p64; p80] (Some 100) false false P DC)
    as (d' & BL & M & L & C & d'' & Q1 & _ & Q2); try (repeat split; reflexivity).
  - intros p I. destruct (S p) as [S1 S2]; [cbn in *; tauto|]. split; [exact S1|]. split; [exact S2|]. destruct I as [<-|[<-|[]]]; tauto.
  - exists p64. split; [now left|exact E1].
  - exists p80. split; [right; now left|exact E3].
  - exists d', BL, M, L, C, d''. split; [exact Q1|exact Q2].
Qed.

Print Assumptions C168_geographic_round_trip_partial.
Print Assumptions C168_both_sides_refuted.
Print Assumptions C168_heights_refuted.
