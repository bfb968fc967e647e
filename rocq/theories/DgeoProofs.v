(** Lemmas about DgeoModel.v. *)
From Coq Require Import Reals ZArith List Bool Lia Lra.
From Verif Require Import PyBase RangeModel RangeSpec RangeProofs PropertiesRange CoordModel CoordSpec CoordProofs CoordProofs2
  PropertiesCoord DualCoordModel DualCoordSpec DualCoordProofs DualCoordProofs2 DgeoModel.
Import ListNotations.
Open Scope R_scope.

Lemma glon2slt_total l u : exists s, glon2slt l u = Ok s.
Proof. destruct l as [x|]; [destruct (C20_glon2slt_spec x u) as [s [E _]]; eauto|]. exists None. unfold glon2slt. rewrite deg2hr_none. cbn [bind fmap option_map]. apply fix24_none. Qed.
Lemma mag_to_geo_total g uth a m h : exists p, mag_to_geo g uth a m h = Ok p.
Proof. unfold mag_to_geo. destruct (to_geo g a (mlt2lon g m) h) as [la lo]. destruct (glon2slt_total lo uth) as [s ->]. eexists. reflexivity. Qed.
(** The converted position. *)
Definition geo_of (g : aacgm) (uth : R) (p : fl * fl * fl) : fl * fl :=
  match mag_to_geo g uth (fst (fst p)) (snd (fst p)) (snd p) with Ok q => q | Err _ => (None, None) end.
Lemma geo_of_ok g uth p : mag_to_geo g uth (fst (fst p)) (snd (fst p)) (snd p) = Ok (geo_of g uth p).
Proof. unfold geo_of. destruct (mag_to_geo_total g uth (fst (fst p)) (snd (fst p)) (snd p)) as [q ->]. reflexivity. Qed.
Lemma mapE_map {A B} (f : A -> res B) (g : A -> B) l : (forall a, f a = Ok (g a)) -> mapE f l = Ok (map g l).
Proof. intros H. induction l as [|a l IH]; cbn [mapE map]; [reflexivity|]. rewrite H, IH. reflexivity. Qed.
Lemma to_geo_arr_ok g uth l m h : length l = length m -> length l = length h -> to_geo_arr g uth l m h = Ok (map (geo_of g uth) (zip3 l m h)).
Proof. intros A B. unfold to_geo_arr. rewrite <- A, <- B, !Nat.eqb_refl. cbn [andb]. apply mapE_map, geo_of_ok. Qed.
Lemma to_geo_arr_bad g uth l m h : length l <> length h -> to_geo_arr g uth l m h = Err ValueError.
Proof. intros N. unfold to_geo_arr. rewrite (proj2 (Nat.eqb_neq _ _) N), andb_false_r. reflexivity. Qed.

(** ** Assignment *)
Lemma put_length {A} i (a : A) l : length (firstn i l ++ match skipn i l with [] => [] | _ :: t => a :: t end) = length l.
Proof.
  rewrite <- (firstn_skipn i l) at 3. rewrite !app_length. f_equal. destruct (skipn i l); reflexivity.
Qed.
Lemma put_nth {A} i (a : A) l j : nth_error (firstn i l ++ match skipn i l with [] => [] | _ :: t => a :: t end) j = if (i =? j)%nat then option_map (fun _ => a) (nth_error l j) else nth_error l j.
Proof.
  revert l j. induction i as [|i IH]; intros [|b l] j; try (destruct j; reflexivity).
  - cbn [firstn skipn app]. rewrite app_nil_r || idtac. destruct (_ =? _)%nat; destruct j; reflexivity.
  - cbn [firstn skipn app]. destruct j as [|j]; [reflexivity|]. cbn [nth_error Nat.eqb]. apply IH.
Qed.
Lemma assign_length {A} (ps : list (nat * A)) : forall l, length (assign ps l) = length l.
Proof. induction ps as [|[i a] ps IH]; intros l; cbn [assign]; [reflexivity|]. rewrite IH. apply put_length. Qed.
Lemma assign_other {A} (ps : list (nat * A)) j : ~ In j (map fst ps) -> forall l, nth_error (assign ps l) j = nth_error l j.
Proof.
  induction ps as [|[i a] ps IH]; intros N l; cbn [assign]; [reflexivity|]. cbn [map fst In] in N. rewrite IH by tauto. rewrite put_nth.
  destruct (Nat.eqb_spec i j); [subst; tauto|reflexivity].
Qed.
Lemma assign_in {A} (ps : list (nat * A)) (f : nat -> A) j : (forall i a, In (i, a) ps -> a = f i) -> In j (map fst ps) -> forall l, (j < length l)%nat -> nth_error (assign ps l) j = Some (f j).
Proof.
  induction ps as [|[i a] ps IH]; intros F I l L; [destruct I|]. cbn [assign].
  destruct (in_dec Nat.eq_dec j (map fst ps)) as [J|J].
  - apply IH; [intros; apply F; now right|exact J|]. rewrite put_length. exact L.
  - rewrite assign_other by exact J. destruct I as [I|I]; [|contradiction]. cbn [fst] in I. subst i. rewrite put_nth, Nat.eqb_refl.
    rewrite (F j a (or_introl eq_refl)). destruct (nth_error l j) eqn:E; [reflexivity|]. apply nth_error_None in E. lia.
Qed.

(** ** Where *)
Lemma where_in f l i : In i (where_ f l) <-> exists v, nth_error l i = Some v /\ f v = true.
Proof.
  unfold where_. rewrite in_map_iff. split.
  - intros ([j v] & E & I). cbn in E. subst j. apply filter_In in I. destruct I as [I F]. exists v. split; [|exact F]. cbn [snd] in F.
    apply In_nth_error in I. destruct I as [k I]. assert (K : (k < length l)%nat) by ((assert (X := nth_error_Some (combine (seq 0 (length l)) l) k); rewrite I in X; rewrite combine_length, seq_length in X; apply proj1 in X; specialize (X ltac:(discriminate)); lia)).
    assert (C : nth_error (combine (seq 0 (length l)) l) k = Some (k, nth k l None)).
    { clear I. assert (G : forall (l : list fl) s k, (k < length l)%nat -> nth_error (combine (seq s (length l)) l) k = Some ((s + k)%nat, nth k l None)).
      { clear. induction l as [|a l IH]; intros s k K; cbn in K; [lia|]. destruct k as [|k]; cbn [length seq combine nth_error nth]; [rewrite Nat.add_0_r; reflexivity|]. rewrite IH by lia. f_equal. f_equal. lia. }
      rewrite G by exact K. reflexivity. }
    rewrite C in I. injection I as <- <-. apply nth_error_nth'. exact K.
  - intros (v & N & F). exists (i, v). split; [reflexivity|]. apply filter_In. split; [|exact F].
    assert (G : forall (l : list fl) s k w, nth_error l k = Some w -> In ((s + k)%nat, w) (combine (seq s (length l)) l)).
    { clear. induction l as [|a l IH]; intros s k w E; [destruct k; discriminate|]. destruct k as [|k]; cbn in E |- *.
      - injection E as ->. left. f_equal. lia.
      - right. replace (s + S k)%nat with (S s + k)%nat by lia. apply IH, E. }
    exact (G l 0%nat i v N).
Qed.
Lemma where_length f l : length (where_ f l) = length (filter f l).
Proof.
  unfold where_. rewrite map_length. generalize 0%nat. induction l as [|a l IH]; intros s; [reflexivity|]. cbn [length seq combine filter snd].
  destruct (f a); cbn [length]; rewrite IH; reflexivity.
Qed.
(** Neither in the polar cap nor NaN. *)
Lemma out_or_mid obl ebl v : Rabs ebl <= Rabs obl -> abs_lt v (Some obl) = negb (negb (in_mid obl ebl v) && negb (in_out ebl v)) /\ (in_mid obl ebl v = true -> in_out ebl v = false).
Proof.
  intros H. unfold in_mid, in_out, abs_lt, abs_ge. destruct v as [x|]; [|split; [reflexivity|discriminate]].
  destruct (Rlt_dec (Rabs x) (Rabs obl)), (Rle_dec (Rabs ebl) (Rabs x)), (Rlt_dec (Rabs x) (Rabs ebl)); cbn; (split; [reflexivity|discriminate || reflexivity]) || (exfalso; lra).
Qed.
Lemma regions_length obl ebl l : Rabs ebl <= Rabs obl -> length (where_ (in_mid obl ebl) l ++ where_ (in_out ebl) l) = length (filter (fun v => abs_lt v (Some obl)) l).
Proof.
  intros H. rewrite app_length, !where_length. induction l as [|v l IH]; [reflexivity|]. cbn [filter]. destruct (out_or_mid obl ebl v H) as [E D]. rewrite E.
  destruct (in_mid obl ebl v) eqn:M; [rewrite (D eq_refl)|]; destruct (in_out ebl v); cbn [negb andb length]; lia.
Qed.
Lemma filter_all {A} f (l : list A) : forallb f l = true -> filter f l = l.
Proof. induction l as [|a l IH]; [reflexivity|]. cbn. intros H. apply andb_true_iff in H. destruct H as [-> H]. now rewrite IH. Qed.
Lemma filter_less {A} f (l : list A) : forallb f l = false -> (length (filter f l) < length l)%nat.
Proof. induction l as [|a l IH]; cbn; [discriminate|]. intros H. assert (L : (length (filter f l) <= length l)%nat) by (clear; induction l as [|b l IH]; cbn; [lia|destruct (f b); cbn; lia]). destruct (f a); cbn in *; [specialize (IH H)|]; lia. Qed.

Lemma fst_combine {A B} (l : list A) : forall (v : list B), length l = length v -> map fst (combine l v) = l.
Proof. induction l as [|a l IH]; intros [|b v] V; cbn in *; try lia; [reflexivity|f_equal; apply IH; lia]. Qed.
(** All positions outside the polar cap, one height. *)
Lemma outside_all g uth obl ebl olat hgt (ps : list (fl * fl)) ms : Rabs ebl <= Rabs obl -> forallb (fun v => abs_lt v (Some obl)) olat = true ->
  length ps = length olat -> exists rs, outside_to_geo g uth obl ebl olat (repeat hgt (length olat)) ps ms = Ok rs /\ length rs = length olat /\
    forall i, (i < length olat)%nat -> nth_error rs i = Some (geo_of g uth (fst (nth i ps (None, None)), nth i ms None, hgt)).
Proof.
  intros H F L. unfold outside_to_geo. pose proof (regions_length obl ebl olat H) as RL. rewrite (filter_all _ _ F) in RL.
  set (imag := where_ (in_mid obl ebl) olat ++ where_ (in_out ebl) olat) in *.
  rewrite to_geo_arr_ok by (rewrite ?map_length, ?repeat_length; congruence). cbn [bind].
  set (vs := map (geo_of g uth) _). eexists. split; [reflexivity|]. split; [rewrite assign_length; exact L|]. intros i I.
  assert (VL : length vs = length imag) by (unfold vs; rewrite map_length; unfold zip3; rewrite !combine_length, !map_length, repeat_length; lia).
  apply (assign_in _ (fun i => geo_of g uth (fst (nth i ps (None, None)), nth i ms None, hgt))).
  - assert (G : forall im n, length im = n -> forall j a, In (j, a) (combine im (map (geo_of g uth) (zip3 (map (fun i => fst (nth i ps (None, None))) im) (map (fun i => nth i ms None) im) (repeat hgt n)))) -> a = geo_of g uth (fst (nth j ps (None, None)), nth j ms None, hgt)).
    { clear. induction im as [|k im IH]; intros n N j a I; cbn in N; subst n; [destruct I|]. cbn [map length repeat zip3 combine] in I. destruct I as [I|I]; [injection I as <- <-; reflexivity|]. apply (IH _ eq_refl j a). exact I. }
    intros j a J. apply (G imag (length olat) RL j a). exact J.
  - pose proof (fst_combine imag vs (eq_sym VL)) as MF.
    rewrite MF. unfold imag. rewrite in_app_iff, !where_in. destruct (nth_error olat i) as [v|] eqn:E; [|apply nth_error_None in E; lia].
    rewrite forallb_forall in F. pose proof (F v (nth_error_In _ _ E)) as FV. destruct (out_or_mid obl ebl v H) as [OM _]. rewrite OM in FV.
    destruct (in_mid obl ebl v) eqn:M; [left; eauto|]. destruct (in_out ebl v) eqn:O; [right; eauto|discriminate].
  - congruence.
Qed.
(** Some in the polar cap, some not. *)
Lemma outside_mixed g uth obl ebl olat hs ps ms : Rabs ebl <= Rabs obl -> forallb (fun v => abs_lt v (Some obl)) olat = false -> length hs = length olat ->
  outside_to_geo g uth obl ebl olat hs ps ms = Err ValueError.
Proof.
  intros H F L. unfold outside_to_geo. rewrite to_geo_arr_bad; [reflexivity|]. rewrite map_length, L, (regions_length _ _ _ H). apply filter_less in F. lia.
Qed.

(** ** Reversion *)
Lemma revert_geo_ok b g uth la ta rc0 cc z n hs rc : current b = Some rc -> length la = n -> length ta = n -> length cc = n -> (0 < n)%nat -> (z = true -> n = 1%nat) -> length hs = n ->
  rc0 = mkArr z false true cc ->
  exists Lm Mm L M, revert_coord b (mkArr false false true la) (mkArr false false true ta) rc0 = Ok (Lm, Mm) /\ length (el Lm) = n /\ length (el Mm) = n /\
    revert_geo b g uth (mkArr false false true la) (mkArr false false true ta) rc0 hs = Ok (L, M) /\ length L = n /\ length M = n /\
    (forallb (wrong_side (hemi b)) la = false -> combine L M = map (geo_of g uth) (zip3 (el Lm) (el Mm) hs)).
Proof.
  intros C H1 H2 H3 H0 Z HS ->. destruct (revert_coord_same b la ta cc z n rc C H1 H2 H3 H0 Z) as (Lm & Mm & E & LL & LM & _). exists Lm, Mm.
  unfold revert_geo. rewrite E, C. cbn [bind fst snd el]. destruct (forallb (wrong_side (hemi b)) la).
  - exists (el Lm), (el Mm). repeat (split; [reflexivity || assumption|]). discriminate.
  - rewrite to_geo_arr_ok by congruence. cbn [bind]. do 2 eexists. split; [reflexivity|]. split; [exact LL|]. split; [exact LM|]. split; [reflexivity|].
    assert (ZL : length (zip3 (el Lm) (el Mm) hs) = n) by (unfold zip3; rewrite !combine_length; lia). rewrite !map_length. split; [exact ZL|]. split; [exact ZL|]. intros _.
    clear. induction (zip3 (el Lm) (el Mm) hs) as [|p l IH]; [reflexivity|]. cbn [map combine]. rewrite IH. destruct (geo_of g uth p); reflexivity.
Qed.
Lemma with_boundaries_map {A B} d ms int ow (u : list fl -> list fl -> list fl -> res A) (v : list fl -> list fl -> list fl -> res B) (f : A -> res B) d' b :
  (forall eb ob m, v eb ob m = (x <- u eb ob m ;; f x)) -> with_boundaries d ms int ow v = (d', Ok b) ->
  exists a, with_boundaries d ms int ow u = (d', Ok a) /\ f a = Ok b /\ exists eb ob m, u eb ob m = Ok a.
Proof.
  intros H. unfold with_boundaries. destruct (if ow then _ else _) as [orig|]; [|discriminate]. destruct (update_pair d ms int (d_rec d)) as [d2 [[[eb ob] m]|]]; [|discriminate].
  rewrite H. destruct (u eb ob m) as [a|] eqn:E; cbn [bind]; [|discriminate]. destruct (f a) as [b'|] eqn:F; [|discriminate]. intros X. injection X as <- <-. eauto 10.
Qed.
Lemma rev_outside obl ebl la obs : forall (P P' : list (fl * fl)) ms, Rabs ebl <= Rabs obl -> forallb (fun v => abs_lt v (Some obl)) la = true -> length P = length la -> length P' = length la ->
  map (rev_pt obl ebl) (combine (combine P (combine la obs)) ms) = map (rev_pt obl ebl) (combine (combine P' (combine la obs)) ms) /\
  forall i p, nth_error (map (rev_pt obl ebl) (combine (combine P (combine la obs)) ms)) i = Some p -> snd p = nth i ms None.
Proof.
  revert obs. induction la as [|v la IH]; intros obs P P' ms H F L L'.
  - destruct P, P'; try discriminate. split; [reflexivity|]. intros [|i] p E; discriminate E.
  - destruct P as [|q P], P' as [|q' P']; try discriminate. destruct obs as [|ob obs]; [split; [reflexivity|intros [|i] p E; discriminate E]|]. destruct ms as [|m ms]; [split; [reflexivity|intros [|i] p E; discriminate E]|].
    cbn [forallb] in F. apply andb_true_iff in F. destruct F as [FV F]. cbn [length] in L, L'. destruct (IH obs P P' ms H F ltac:(lia) ltac:(lia)) as [I1 I2]. cbn [combine map]. rewrite I1. split.
    + f_equal. destruct q, q', ob. unfold rev_pt. destruct (out_or_mid obl ebl v H) as [OM _]. rewrite OM in FV. unfold in_mid, in_out in FV. destruct (abs_lt v (Some ebl)); [reflexivity|]. destruct (abs_lt v (Some obl) && abs_ge v (Some ebl)); [reflexivity|discriminate].
    + intros [|i] p E; cbn [nth_error nth] in E |- *.
      * injection E as <-. destruct q, ob. unfold rev_pt. destruct (out_or_mid obl ebl v H) as [OM _]. rewrite OM in FV. unfold in_mid, in_out in FV. destruct (abs_lt v (Some ebl)); [reflexivity|]. destruct (abs_lt v (Some obl) && abs_ge v (Some ebl)); [reflexivity|discriminate].
      * rewrite <- I1 in E. exact (I2 i p E).
Qed.
Lemma spread_same z a b n : length a = n -> length b = n -> spread (out z a) (out z b) = Ok (mkArr false false true a, mkArr false false true b).
Proof. intros A B. unfold spread. cbn [out is0d isint el]. destruct z; [reflexivity|]. rewrite A, B, Nat.eqb_refl. reflexivity. Qed.
Lemma spread3_same z a b n hgt : length a = n -> length b = n -> (0 < n)%nat -> (z = true -> n = 1%nat) ->
  exists ha, spread3 (out z a) (out z b) (sc hgt) = Ok (mkArr false false true a, mkArr false false true b, ha) /\ el ha = repeat hgt n.
Proof.
  intros A B N Z. unfold spread3. cbn [out sc is0d isint el andb]. destruct z; cbn [andb].
  - rewrite (Z eq_refl). eexists. split; reflexivity.
  - unfold max_len. cbn [filter negb is0d out sc map el fold_right]. rewrite A, B. replace (Nat.max n (Nat.max n 0)) with n by lia. unfold widen. cbn [is0d out sc el isint hd]. rewrite A, B, Nat.eqb_refl. cbn [bind]. eexists. split; reflexivity.
Qed.
Lemma combine_nth2 {A B} (l : list A) : forall (m : list B) i a b, nth_error l i = Some a -> nth_error m i = Some b -> nth_error (combine l m) i = Some (a, b).
Proof. induction l as [|x l IH]; intros [|y m] [|i] a b E F; cbn in *; try discriminate; [congruence|auto]. Qed.
Lemma nth_repeat' {A} (x : A) n i : (i < n)%nat -> nth_error (repeat x n) i = Some x.
Proof. revert i. induction n as [|n IH]; intros [|i] H; cbn; try lia; [reflexivity|apply IH; lia]. Qed.
Lemma with_boundaries_ok {A B} d ms int ow (u : list fl -> list fl -> list fl -> res A) (v : list fl -> list fl -> list fl -> res B) d' b :
  (forall eb ob m y, v eb ob m = Ok y -> exists x, u eb ob m = Ok x) -> with_boundaries d ms int ow v = (d', Ok b) ->
  exists a, with_boundaries d ms int ow u = (d', Ok a).
Proof.
  intros H. unfold with_boundaries. destruct (if ow then _ else _) as [orig|]; [|discriminate]. destruct (update_pair d ms int (d_rec d)) as [d2 [[[eb ob] m]|]]; [|discriminate].
  destruct (v eb ob m) as [y|] eqn:E; [|discriminate]. destruct (H _ _ _ _ E) as [x ->]. intros X. injection X as <- <-. eauto.
Qed.
Lemma cut_one {X} (z : bool) n (l : list X) : (z = true -> n = 1%nat) -> length l = n -> (if z then firstn 1 l else l) = l.
Proof. intros Z HL. destruct z; [|reflexivity]. specialize (Z eq_refl). subst n. destruct l as [|x [|y l]]; cbn in HL; try lia. reflexivity. Qed.
Lemma cap_not_out obl l : (0 < length l)%nat -> forallb (fun v => abs_ge v (Some obl)) l = true -> forallb (fun v => abs_lt v (Some obl)) l = true -> False.
Proof.
  intros N CAP OUT. destruct l as [|v a]; [cbn in N; lia|]. cbn [forallb] in OUT, CAP. apply andb_true_iff in OUT, CAP. destruct OUT as [O _], CAP as [K _].
  unfold abs_lt, abs_ge in *. destruct v as [x|]; [|discriminate]. destruct (Rlt_dec (Rabs x) (Rabs obl)), (Rle_dec (Rabs obl) (Rabs x)); try discriminate; lra.
Qed.
(** Geographic reversion is magnetic reversion followed by the conversion of each position:
    in the polar cap, *)
Lemma dual_revert_geo_cap d orc erc g uth z a b c m n H hs ow d' LA LT : paired d orc erc ->
  length a = n -> length b = n -> length c = n -> (0 < n)%nat -> (z = true -> n = 1%nat) ->
  (exists ha, spread3 (out z a) (out z b) H = Ok (mkArr false false true a, mkArr false false true b, ha) /\ el ha = hs) -> length hs = n -> (z && is0d H = z)%bool ->
  dual_revert d (out z a) (out z b) (out z c) false m ow = (d', Ok (LA, LT)) ->
  forallb (fun v => abs_ge v (Some (blat (d_o d)))) a = true -> forallb (wrong_side (hemi (d_o d))) a = false ->
  exists rs, dual_revert_geo d g uth (out z a) (out z b) (out z c) H false m ow = (d', Ok (out z (map fst rs), out z (map snd rs))) /\ length rs = n /\
    rs = map (geo_of g uth) (zip3 (el LA) (el LT) hs).
Proof.
  intros P A B C N Z (ha & S3 & EH) LH ZH E CAP WS. pose proof (proj2 (current_selected _ _) (p_o _ _ _ P)) as CU.
  unfold dual_revert in E. rewrite (spread_same z a b n A B) in E. unfold dual_revert_geo. rewrite S3, EH.
  destruct (revert_geo_ok (d_o d) g uth a b (out z c) c z n hs orc CU A B C N Z LH eq_refl) as (Lm & Mm & L & MM & RC & L1 & L2 & RG & L3 & L4 & CONV).
  rewrite RC in E. rewrite RG. cbn [orb el isint] in *. rewrite CAP in E |- *. cbn [out is0d] in *.
  assert (ZB : (z && z = z)%bool) by (destruct z; reflexivity). rewrite ?ZB, ?ZH in *.
  rewrite (cut_one z n (el Lm) Z L1), (cut_one z n (el Mm) Z L2) in E. injection E as <- <- <-. cbn [out el] in *. rewrite (CONV WS).
  assert (ZL : length (map (geo_of g uth) (zip3 (el Lm) (el Mm) hs)) = n) by (rewrite map_length; unfold zip3; rewrite !combine_length; lia).
  exists (map (geo_of g uth) (zip3 (el Lm) (el Mm) hs)). rewrite (cut_one z n) by assumption. split; [reflexivity|]. split; [exact ZL|reflexivity].
Qed.
(** and outside it, where the heights are taken in the order of the input. *)
Lemma dual_revert_geo_out d orc erc g uth z a b c m n H hs ow d' LA LT : paired d orc erc -> Rabs (blat (d_e d)) <= Rabs (blat (d_o d)) ->
  length a = n -> length b = n -> length c = n -> (0 < n)%nat -> (z = true -> n = 1%nat) ->
  (exists ha, spread3 (out z a) (out z b) H = Ok (mkArr false false true a, mkArr false false true b, ha) /\ el ha = hs) -> length hs = n -> (z && is0d H = z)%bool ->
  dual_revert d (out z a) (out z b) (out z c) false m ow = (d', Ok (LA, LT)) -> (n <= length (el LA))%nat ->
  forallb (fun v => abs_lt v (Some (blat (d_o d)))) a = true ->
  length (el LA) = n /\ length (el LT) = n /\
  dual_revert_geo d g uth (out z a) (out z b) (out z c) H false m ow =
    (d', ps <- outside_to_geo g uth (blat (d_o d)) (blat (d_e d)) a hs (combine (el LA) (el LT)) (el LT) ;;
         Ok (out z (map fst (if z then firstn 1 ps else ps)), out z (map snd (if z then firstn 1 ps else ps)))).
Proof.
  intros P HB A B C N Z (ha & S3 & EH) LH ZH E LN OUT. pose proof (proj2 (current_selected _ _) (p_o _ _ _ P)) as CU.
  unfold dual_revert in E. rewrite (spread_same z a b n A B) in E. unfold dual_revert_geo. rewrite S3, EH.
  destruct (revert_geo_ok (d_o d) g uth a b (out z c) c z n hs orc CU A B C N Z LH eq_refl) as (Lm & Mm & L & MM & RC & L1 & L2 & RG & L3 & L4 & CONV).
  rewrite RC in E. rewrite RG. cbn [orb el isint] in *. cbn [out is0d] in *.
  assert (ZB : (z && z = z)%bool) by (destruct z; reflexivity). rewrite ?ZB, ?ZH in *.
  destruct (forallb (fun v => abs_ge v (Some (blat (d_o d)))) a) eqn:CAP; [exfalso; apply (cap_not_out (blat (d_o d)) a); [lia|assumption|assumption]|].
  destruct m as [m|]; [|discriminate].
  set (ms := if is0d m then _ else _) in *. set (ow' := (ow || _)%bool) in *.
  match type of E with with_boundaries ?dd ?mm ?ii ?oo ?v = _ =>
    destruct (with_boundaries_map dd mm ii oo
      (fun eb ob ms' => if (length ms' <? length a)%nat then Err IndexError else Ok (map (rev_pt (blat (d_o d)) (blat (d_e d))) (combine (combine (combine L MM) (combine a (combine ob eb))) ms'), ms'))
      v (fun x => Ok (out z (if z then firstn 1 (map fst (fst x) ++ skipn (length a) (el Lm)) else map fst (fst x) ++ skipn (length a) (el Lm)),
                      out z (if z then firstn 1 (map snd (fst x) ++ skipn (length a) (el Mm)) else map snd (fst x) ++ skipn (length a) (el Mm)))) d' (LA, LT)) as (x & W & FX & eb & ob & mm' & U) end.
  - intros eb ob ms'. destruct (length ms' <? length a)%nat; [reflexivity|]. cbn [bind fst snd].
    destruct (rev_outside (blat (d_o d)) (blat (d_e d)) a (combine ob eb) (combine (el Lm) (el Mm)) (combine L MM) ms' HB OUT) as [RO _]; [rewrite combine_length; lia|rewrite combine_length; lia|]. rewrite RO. reflexivity.
  - exact E.
  - rewrite W. destruct (length mm' <? length a)%nat; [discriminate|]. injection U as <-. cbn [fst snd bind] in *.
    set (rs := map (rev_pt _ _) _) in *. match type of FX with Ok (?u, ?v) = _ => assert (LA = u /\ LT = v) as [-> ->] by (split; congruence) end. clear FX.
    clear E W. assert (SK : skipn (length a) (el Lm) = [] /\ skipn (length a) (el Mm) = []) by (rewrite !skipn_all2 by lia; auto). destruct SK as [SK1 SK2]. rewrite SK1, SK2, !app_nil_r in *.
    destruct (rev_outside (blat (d_o d)) (blat (d_e d)) a (combine ob eb) (combine L MM) (combine L MM) mm' HB OUT) as [_ RS]; [rewrite combine_length; lia|rewrite combine_length; lia|]. fold rs in RS.
    assert (RL : length rs = n).
    { assert (RLE : (length rs <= n)%nat) by (unfold rs; rewrite map_length, !combine_length; lia).
      cbn [out el] in LN. destruct z; [|rewrite map_length in LN; lia]. specialize (Z eq_refl). rewrite firstn_length, map_length in LN. lia. }
    rewrite (cut_one z n (map fst rs) Z) in * by (rewrite map_length; exact RL). rewrite (cut_one z n (map snd rs) Z) in * by (rewrite map_length; exact RL). cbn [out el] in *.
    rewrite !map_length. split; [exact RL|]. split; [exact RL|].
    assert (CO : combine (map fst rs) (map snd rs) = rs) by (clear; induction rs as [|[u v] l IH]; cbn; [reflexivity|now rewrite IH]). rewrite CO.
    assert (IN : forall i, In i (where_ (in_mid (blat (d_o d)) (blat (d_e d))) a ++ where_ (in_out (blat (d_e d))) a) -> nth i mm' None = nth i (map snd rs) None).
    { intros i I. assert (IL : (i < n)%nat) by (rewrite <- A; apply nth_error_Some; apply in_app_iff in I; destruct I as [I|I]; apply where_in in I; destruct I as (v & -> & _); discriminate).
      destruct (nth_error rs i) as [p|] eqn:EP; [|apply nth_error_None in EP; lia]. rewrite <- (RS i p EP). symmetry. apply nth_error_nth. rewrite nth_error_map, EP. reflexivity. }
    unfold outside_to_geo. rewrite (map_ext_in _ _ _ IN).
    destruct (to_geo_arr g uth _ _ hs); reflexivity.
Qed.
(** Positions both in the polar cap and outside it are not reverted. *)
Lemma dual_revert_geo_mixed d orc erc g uth z a b c m n H hs ow d' LA LT : paired d orc erc -> Rabs (blat (d_e d)) <= Rabs (blat (d_o d)) ->
  length a = n -> length b = n -> length c = n -> (0 < n)%nat -> (z = true -> n = 1%nat) ->
  (exists ha, spread3 (out z a) (out z b) H = Ok (mkArr false false true a, mkArr false false true b, ha) /\ el ha = hs) -> length hs = n -> (z && is0d H = z)%bool ->
  dual_revert d (out z a) (out z b) (out z c) false m ow = (d', Ok (LA, LT)) ->
  forallb (fun v => abs_lt v (Some (blat (d_o d)))) a = false -> forallb (fun v => abs_ge v (Some (blat (d_o d)))) a = false ->
  dual_revert_geo d g uth (out z a) (out z b) (out z c) H false m ow = (d', Err ValueError).
Proof.
  intros P HB A B C N Z (ha & S3 & EH) LH ZH E OUT CAP. pose proof (proj2 (current_selected _ _) (p_o _ _ _ P)) as CU.
  unfold dual_revert in E. rewrite (spread_same z a b n A B) in E. unfold dual_revert_geo. rewrite S3, EH.
  destruct (revert_geo_ok (d_o d) g uth a b (out z c) c z n hs orc CU A B C N Z LH eq_refl) as (Lm & Mm & L & MM & RC & L1 & L2 & RG & L3 & L4 & CONV).
  rewrite RC in E. rewrite RG. cbn [orb el isint] in *. cbn [out is0d] in *.
  assert (ZB : (z && z = z)%bool) by (destruct z; reflexivity). rewrite ?ZB, ?ZH in *. rewrite CAP in E |- *. destruct m as [m|]; [|discriminate].
  set (ms := if is0d m then _ else _) in *. set (ow' := (ow || _)%bool) in *.
  match type of E with with_boundaries ?dd ?mm ?ii ?oo ?v = _ =>
    destruct (with_boundaries_ok dd mm ii oo
      (fun eb ob ms' => if (length ms' <? length a)%nat then Err IndexError else Ok (map (rev_pt (blat (d_o d)) (blat (d_e d))) (combine (combine (combine L MM) (combine a (combine ob eb))) ms'), ms'))
      v d' (LA, LT)) as (x & W) end.
  - intros eb ob ms' y. destruct (length ms' <? length a)%nat; [discriminate|]. eauto.
  - exact E.
  - rewrite W. cbn [bind]. rewrite (outside_mixed g uth _ _ a hs _ _ HB OUT) by congruence. reflexivity.
Qed.
(** With one height for all positions, all in the polar cap or all outside it, each is converted. *)
Lemma dual_revert_geo_of d orc erc g uth z a b c m n hgt ow d' LA LT : paired d orc erc -> Rabs (blat (d_e d)) <= Rabs (blat (d_o d)) ->
  length a = n -> length b = n -> length c = n -> (0 < n)%nat -> (z = true -> n = 1%nat) ->
  dual_revert d (out z a) (out z b) (out z c) false m ow = (d', Ok (LA, LT)) -> (n <= length (el LA))%nat ->
  (forallb (fun v => abs_lt v (Some (blat (d_o d)))) a = true \/
   forallb (fun v => abs_ge v (Some (blat (d_o d)))) a = true /\ forallb (wrong_side (hemi (d_o d))) a = false) ->
  exists rs, dual_revert_geo d g uth (out z a) (out z b) (out z c) (sc hgt) false m ow = (d', Ok (out z (map fst rs), out z (map snd rs))) /\ length rs = n /\
    forall i x y, nth_error (el LA) i = Some x -> nth_error (el LT) i = Some y -> (i < n)%nat -> nth_error rs i = Some (geo_of g uth (x, y, hgt)).
Proof.
  intros P HB A B C N Z E LN REG. destruct (spread3_same z a b n hgt A B N Z) as (ha & S3 & EH).
  assert (SP : exists ha, spread3 (out z a) (out z b) (sc hgt) = Ok (mkArr false false true a, mkArr false false true b, ha) /\ el ha = repeat hgt n) by eauto.
  assert (ZH : (z && is0d (sc hgt) = z)%bool) by (destruct z; reflexivity).
  destruct REG as [OUT|[CAP WS]].
  - destruct (dual_revert_geo_out d orc erc g uth z a b c m n (sc hgt) _ ow d' LA LT P HB A B C N Z SP (repeat_length _ _) ZH E LN OUT) as (L1 & L2 & ->).
    destruct (outside_all g uth (blat (d_o d)) (blat (d_e d)) a hgt (combine (el LA) (el LT)) (el LT) HB OUT) as (qs & OQ & LQ & NQ); [rewrite combine_length; lia|]. rewrite A in OQ, LQ, NQ. rewrite OQ. cbn [bind]. rewrite (cut_one z n qs Z LQ).
    exists qs. split; [reflexivity|]. split; [exact LQ|]. intros i x y X Y I. rewrite (NQ i I).
    rewrite (nth_error_nth _ _ _ (combine_nth2 _ _ i x y X Y)), (nth_error_nth _ _ _ Y). reflexivity.
  - destruct (dual_revert_geo_cap d orc erc g uth z a b c m n (sc hgt) _ ow d' LA LT P A B C N Z SP (repeat_length _ _) ZH E CAP WS) as (rs & -> & RL & ->).
    eexists. split; [reflexivity|]. split; [exact RL|]. intros i x y X Y I. rewrite nth_error_map. unfold zip3.
    rewrite (combine_nth2 _ _ i (x, y) hgt); [reflexivity| |apply nth_repeat'; exact I]. apply combine_nth2; assumption.
Qed.
