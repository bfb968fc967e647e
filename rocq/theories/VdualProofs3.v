(** Proofs about [set_ocb] with a DualBoundary: what is kept. *)
From Coq Require Import Reals ZArith List Bool Lia Lra.
From Verif Require Import PyBase RangeModel RangeSpec RangeProofs CoordModel CoordSpec CoordProofs CoordProofs2
  DualCoordModel DualCoordSpec DualCoordProofs DualCoordProofs2 PropertiesDualCoord
  VectorModel ScalingModel ScalingSpec ScalingProofs ScalingProofs2 ScalingProofs3 ScalingProofs4 ScalingProofs5 VdualModel VdualSpec VdualProofs VdualProofs2.
Import ListNotations.
Open Scope R_scope.

Lemma stores_refl d : stores_kept d d.
Proof. split; intros c k x E N; eauto. Qed.
Lemma stores_trans d d' d'' : stores_kept d d' -> stores_kept d' d'' -> stores_kept d d''.
Proof.
  intros [A1 B1] [A2 B2]. split; intros c k x E N.
  - destruct (A1 c k x E N) as (c' & E' & N'). apply (A2 c' k x E' N').
  - destruct (B1 c k x E N) as (c' & E' & N'). apply (B2 c' k x E' N').
Qed.

Lemma dual_normal_paired d orc erc lat lt ow d' r : paired d orc erc -> isint lat = false -> isint lt = false ->
  dual_normal d lat lt ow = (d', r) -> paired d' orc erc /\ exists os es, d' = put_stores d os es.
Proof.
  intros P IL IT. assert (REFL : paired d orc erc /\ exists os es, d = put_stores d os es).
  { split; [exact P|]. exists (d_os d), (d_es d). now destruct d. }
  unfold dual_normal. destruct (spread lat lt) as [[la ta]|] eqn:SP; [|intros E; injection E as <- _; exact REFL].
  destruct (_ || _)%Z; [intros E; injection E as <- _; exact REFL|].
  destruct (normal_coord _ _ _) as [[[[L M] C] after]|]; [|intros E; injection E as <- _; exact REFL].
  destruct (forallb isnan (el L)); [intros E; injection E as <- _; exact REFL|].
  assert (isint ta = false) as ->.
  { unfold spread in SP. rewrite IL, IT in SP. destruct (is0d lat), (is0d lt); [injection SP as <- <-; reflexivity..|].
    destruct (_ =? _)%nat; [injection SP as <- <-; reflexivity|discriminate SP]. }
  match goal with |- with_boundaries d (el ta) false ?o ?u = _ -> _ => destruct (with_boundaries_spec d orc erc (el ta) o u P) as [d1 [W [ST [P' _]]]] end.
  rewrite W. intros E. injection E as <- _. auto.
Qed.

(** Any call of [normal_coord] at any pair, on floats. *)
Lemma coords_frame d k lat lt d' r : dual_wf d -> isint lat = false -> isint lt = false -> dual_coords d k lat lt = (d', r) ->
  alike d d' /\ (forall x, r = Ok x -> stores_kept d d').
Proof.
  intros [WF [SO SE]] IL IT. unfold dual_coords.
  destruct (Z_lt_le_dec k 0) as [K|K]; [|destruct (Z_lt_le_dec k (d_n d)) as [K2|K2]].
  - unfold set_rec. cbv zeta. replace (k <? 0)%Z with true by (symmetry; now apply Z.ltb_lt). unfold dual_normal.
    destruct (spread lat lt) as [[la ta]|]; cbn [d_rec d_n]; [replace (k <? 0)%Z with true by (symmetry; now apply Z.ltb_lt); cbn [orb]|];
      intros E; injection E as <- <-; (split; [eexists _, _, _, _, _; split; [reflexivity|auto]|intros; apply (stores_refl d)]).
  - destruct (WF k ltac:(lia)) as (io & ie & orc & erc & P). destruct (moved_spec _ _ _ _ _ _ P) as [-> PD].
    destruct (dual_normal (moved d k io ie) lat lt false) as [d2 r2] eqn:E2. intros E. injection E as <- <-.
    destruct (dual_normal_paired _ _ _ _ _ _ _ _ PD IL IT E2) as [PD' ST]. split; [apply (stored_alike d _ _ _ _ _ _ PD' ST)|].
    intros x Hx. destruct r2 as [o|]; [|discriminate Hx].
    destruct (C39_dual_stores_kept_partial _ _ _ PD) as [Q _]. exact (Q _ _ _ _ E2).
  - unfold set_rec. cbv zeta. replace (k <? 0)%Z with false by (symmetry; now apply Z.ltb_ge). replace (d_n d <=? k)%Z with true by (symmetry; now apply Z.leb_le).
    unfold dual_normal.
    destruct (spread lat lt) as [[la ta]|]; cbn [d_rec d_n];
      [replace (d_n d <=? k)%Z with true by (symmetry; now apply Z.leb_le); rewrite orb_true_r|];
      intros E; injection E as <- <-; (split; [eexists _, _, _, _, _; split; [reflexivity|auto]|intros; apply (stores_refl d)]).
Qed.
Lemma alike_wf d d' : dual_wf d -> alike d d' -> dual_wf d'.
Proof.
  intros [WF _] A. split.
  - intros k K. destruct A as (i & j & r & os & es & -> & F1 & F2). cbn [d_n] in K. destruct (WF k K) as (io & ie & orc & erc & P).
    exists io, ie, orc, erc. apply (alike_pair d); [|exact P]. exists i, j, r, os, es. auto.
  - destruct A as (i & j & r & os & es & -> & F1 & F2). auto.
Qed.
Lemma coords_of_frame d k v d' r : dual_wf d -> coords_of_dual d k v = (d', r) ->
  alike d d' /\ (forall v', r = Ok v' -> stores_kept d d' /\ same_inputs v v').
Proof.
  intros WF. unfold coords_of_dual. destruct (dual_coords d k _ _) as [d2 r2] eqn:E. intros X. injection X as <- <-.
  pose proof (fun a b => coords_frame _ _ _ _ _ _ WF a b E) as Q. destruct (Q eq_refl eq_refl) as [A B]. clear Q. split; [exact A|].
  intros v' H. destruct r2 as [[[bl m] c]|]; [|discriminate H]. split; [eapply B; reflexivity|]. cbn in H. injection H as <-. unfold same_inputs. auto 8.
Qed.
Lemma each_frame ks : forall d vs d' r, dual_wf d -> length ks = length vs -> coords_each d ks vs = (d', r) ->
  alike d d' /\ (forall vs', r = Ok vs' -> stores_kept d d' /\ Forall2 same_inputs vs vs').
Proof.
  induction ks as [|k ks IH]; intros d [|v vs] d' r WF L H; try discriminate L.
  - cbn in H. injection H as <- <-. split; [apply alike_refl; apply WF|]. intros vs' E. injection E as <-. split; [apply stores_refl|constructor].
  - cbn [coords_each] in H. destruct (coords_of_dual d k v) as [d1 r1] eqn:E1. destruct (coords_of_frame _ _ _ _ _ WF E1) as [A1 B1].
    destruct r1 as [v1|e].
    + destruct (coords_each d1 ks vs) as [d2 r2] eqn:E2. injection H as <- <-. injection L as L.
      destruct (IH d1 vs d2 r2 (alike_wf _ _ WF A1) L E2) as [A2 B2]. split; [now apply (alike_trans d d1)|].
      intros vs' X. destruct r2 as [l|]; [|discriminate X]. cbn in X. injection X as <-. destruct (B1 _ eq_refl) as [S1 I1]. destruct (B2 _ eq_refl) as [S2 I2].
      split; [now apply (stores_trans d d1)|now constructor].
    + injection H as <- <-. split; [exact A1|]. intros vs' X. discriminate X.
Qed.

Lemma put_coords_kept vs : forall bl m c, length bl = length vs -> length m = length vs -> length c = length vs ->
  Forall2 same_inputs vs (put_coords vs (map w_lat vs) bl m c).
Proof.
  induction vs as [|v vs IH]; intros [|b bl] [|x m] [|y c] L1 L2 L3; try discriminate; [constructor|]. cbn [map put_coords].
  constructor; [unfold same_inputs; auto 8|]. apply IH; [now injection L1|now injection L2|now injection L3].
Qed.
Lemma dual_normal_length d lat lt ow d' BL M L C n : is0d lat = false -> is0d lt = false -> isint lat = false -> isint lt = false ->
  length (el lat) = n -> length (el lt) = n -> n <> 0%nat ->
  (exists orc erc, paired d orc erc) \/ ((d_rec d < 0)%Z \/ (d_n d <= d_rec d)%Z) ->
  dual_normal d lat lt ow = (d', Ok (BL, M, L, C)) -> length (el BL) = n /\ length (el M) = n /\ length (el C) = n.
Proof.
  intros Z1 Z2 I1 I2 N1 N2 NZ PP. unfold dual_normal, spread. rewrite Z1, Z2, I1, I2, N1, N2, Nat.eqb_refl. cbn [andb].
  destruct (((d_rec d <? 0) || (d_n d <=? d_rec d))%Z) eqn:OUT.
  - intros E. injection E as <- <- <- <- <-. cbn [out el]. rewrite map_length. auto.
  - assert (P : exists orc erc, paired d orc erc).
    { destruct PP as [P|PP]; [exact P|]. apply orb_false_iff in OUT. destruct OUT as [O1 O2]. apply Z.ltb_ge in O1. apply Z.leb_gt in O2. lia. }
    destruct P as (orc & erc & P).
    destruct (normal_coord (d_o d) _ _) as [[[[L0 M0] C0] after]|] eqn:NC; [|discriminate].
    destruct (normal_again (d_o d) (el lat) (el lt) ltac:(congruence) _ _ _ _ NC) as (_ & AF & Q1 & Q2 & Q3).
    destruct (forallb isnan (el L0)).
    + intros E. injection E as <- <- <- <- <-. cbn [out el]. rewrite Q1, Q2, Q3. auto.
    + cbn [el isint]. match goal with |- with_boundaries d (el lt) false ?o ?u = _ -> _ => destruct (with_boundaries_spec d orc erc (el lt) o u P) as [d1 [W _]] end.
      rewrite W. intros E. injection E as _ E1 E2 E3 E4. subst BL M L C. cbn [out el]. split; [|split; congruence].
      rewrite map_length. apply Forall2_length' in AF.
      assert (LL : forall rc ms, length (lats_of (hemi (d_o d)) rc ms) = length ms) by (intros rc ms; exact (mapE_length _ _ _ (lats_of_eq _ rc ms))).
      unfold pt.
      rewrite !List.combine_length, !LL. unfold wrapped. rewrite !map_length. lia.
Qed.

Lemma set_rec_cases d k d1 : dual_wf d -> set_rec d k = Ok d1 ->
  (exists orc erc, paired d1 orc erc) \/ ((d_rec d1 < 0)%Z \/ (d_n d1 <= d_rec d1)%Z).
Proof.
  intros [WF _] H. destruct (Z_lt_le_dec k 0) as [K|K]; [|destruct (Z_lt_le_dec k (d_n d)) as [K2|K2]].
  - right. left. unfold set_rec in H. replace (k <? 0)%Z with true in H by (symmetry; now apply Z.ltb_lt). injection H as <-. exact K.
  - left. destruct (WF k ltac:(lia)) as (io & ie & orc & erc & P). destruct (moved_spec _ _ _ _ _ _ P) as [E PD]. rewrite E in H. injection H as <-. eauto.
  - right. right. unfold set_rec in H. cbv zeta in H. replace (k <? 0)%Z with false in H by (symmetry; now apply Z.ltb_ge).
    replace (d_n d <=? k)%Z with true in H by (symmetry; now apply Z.leb_le). injection H as <-. exact K2.
Qed.

Lemma inputs_trans v v' v'' : same_inputs v v' -> same_inputs v' v'' -> same_inputs v v''.
Proof. unfold same_inputs. intuition congruence. Qed.
Lemma F2_inputs vs vs' vs'' : Forall2 same_inputs vs vs' -> Forall2 (fun v v' => same_inputs v v' /\ same_coords v v') vs' vs'' -> Forall2 same_inputs vs vs''.
Proof. intros A B. eapply Forall2_trans'; [|exact A|exact B]. cbn beta. intros x y z X [Y _]. now apply (inputs_trans x y). Qed.
Lemma F2_inputs_refl vs : Forall2 same_inputs vs vs.
Proof. apply Forall2_refl. unfold same_inputs. auto. Qed.

Lemma scalar_frame d k own arg v d' v' : dual_wf d -> set_ocb_dual d k own arg v = (d', Ok v') -> alike d d' /\ stores_kept d d' /\ same_inputs v v'.
Proof.
  intros WF. unfold set_ocb_dual. destruct (pair_time d (d_rec d)); [|discriminate].
  destruct (if no_coords [v] then coords_of_dual d k v else (d, Ok v)) as [d1 r] eqn:E. intros H. injection H as <- H.
  destruct r as [v1|]; [|discriminate H]. cbn [bind] in H.
  assert (A : alike d d1 /\ stores_kept d d1 /\ same_inputs v v1).
  { destruct (no_coords [v]).
    - destruct (coords_of_frame _ _ _ _ _ WF E) as [A B]. destruct (B _ eq_refl). auto.
    - injection E as <- <-. split; [apply alike_refl; apply WF|]. split; [apply stores_refl|unfold same_inputs; auto]. }
  destruct A as (A1 & A2 & A3). split; [exact A1|]. split; [exact A2|]. destruct (no_coords [v1]); [injection H as <-; exact A3|].
  destruct (ocb_rec d k) as [rc|]; [|discriminate H]. cbn [bind] in H. destruct (finish1_kept _ _ _ _ _ H) as [K _]. now apply (inputs_trans v v1).
Qed.
Lemma matched_frame d ks own arg vs d' vs' : dual_wf d -> length ks = length vs -> set_ocb_dual_matched d ks own arg vs = (d', Ok vs') ->
  alike d d' /\ stores_kept d d' /\ Forall2 same_inputs vs vs'.
Proof.
  intros WF L. unfold set_ocb_dual_matched. destruct (mapE (pair_time d) ks); [|discriminate].
  destruct (if no_coords vs then coords_each d ks vs else (d, Ok vs)) as [d1 r] eqn:E. intros H. injection H as <- H.
  destruct r as [vs1|]; [|discriminate H]. cbn [bind] in H.
  assert (A : alike d d1 /\ stores_kept d d1 /\ Forall2 same_inputs vs vs1).
  { destruct (no_coords vs).
    - destruct (each_frame _ _ _ _ _ WF L E) as [A B]. destruct (B _ eq_refl). auto.
    - injection E as <- <-. split; [apply alike_refl; apply WF|]. split; [apply stores_refl|apply F2_inputs_refl]. }
  destruct A as (A1 & A2 & A3). split; [exact A1|]. split; [exact A2|]. destruct (no_coords vs1); [injection H as <-; exact A3|].
  destruct (mapE (ocb_rec d) ks) as [rcs|] eqn:ER; [|discriminate H]. cbn [bind] in H. apply (F2_inputs vs vs1); [exact A3|].
  apply (finish_kept _ _ _ _ _) in H; [exact H|]. apply Forall2_length' in A3.
  assert (length rcs = length ks) as ->; [|lia]. clear - ER. revert rcs ER. induction ks as [|k ks IH]; intros rcs ER; cbn in ER; [now injection ER as <-|].
  destruct (ocb_rec d k); [|discriminate ER]. cbn [bind] in ER. destruct (mapE (ocb_rec d) ks) as [l|]; [|discriminate ER]. injection ER as <-. cbn. now rewrite (IH l).
Qed.
Lemma array_frame d k own arg vs d' vs' : dual_wf d -> vs <> [] -> set_ocb_dual_array d k own arg vs = (d', Ok vs') ->
  alike d d' /\ stores_kept d d' /\ Forall2 same_inputs vs vs'.
Proof.
  intros WF NE. unfold set_ocb_dual_array. destruct (pair_time d (d_rec d)); [|discriminate].
  match goal with |- context [let '(d1, r) := ?x in _] => destruct x as [d1 r] eqn:E end. intros H. injection H as <- H.
  destruct r as [vs1|]; [|discriminate H]. cbn [bind] in H.
  assert (A : alike d d1 /\ stores_kept d d1 /\ Forall2 same_inputs vs vs1).
  { destruct (no_coords vs).
    - destruct (dual_coords d k _ _) as [d2 r2] eqn:E2. injection E as <- E.
      pose proof (fun a b => coords_frame _ _ _ _ _ _ WF a b E2) as Q. destruct (Q eq_refl eq_refl) as [A B]. clear Q. destruct r2 as [[[bl m] c]|]; [|discriminate E].
      cbn [bind] in E. injection E as <-. split; [exact A|]. split; [eapply B; reflexivity|].
      unfold dual_coords in E2. destruct (set_rec d k) as [dm|] eqn:SR; [|discriminate E2].
      destruct (dual_normal dm _ _ false) as [d3 r3] eqn:DN. injection E2 as _ E2. destruct r3 as [[[[BL M] L] C]|]; [|discriminate E2]. cbn [bind] in E2. injection E2 as <- <- <-.
      destruct (fun a b c d e f g => dual_normal_length _ _ _ _ _ _ _ _ _ (length vs) a b c d e f g (set_rec_cases _ _ _ WF SR) DN) as (Q1 & Q2 & Q3);
        cbn [el is0d isint]; try reflexivity; try apply map_length; [destruct vs; [congruence|discriminate]|].
      now apply put_coords_kept.
    - injection E as <- <-. split; [apply alike_refl; apply WF|]. split; [apply stores_refl|apply F2_inputs_refl]. }
  destruct A as (A1 & A2 & A3). split; [exact A1|]. split; [exact A2|]. destruct (no_coords vs1); [injection H as <-; exact A3|].
  destruct (ocb_rec d k) as [rc|]; [|discriminate H]. cbn [bind] in H. apply (F2_inputs vs vs1); [exact A3|].
  apply (finish_kept _ _ _ _ _) in H; [exact H|]. apply repeat_length.
Qed.

(** ** Poleward of the boundary on its meridian but outside the circle *)
Lemma some_bad_one obl p : reg_ocb obl (snd (fst p)) = false -> reg_mid (fst (fst p)) (fst (snd p)) (snd (snd p)) = false ->
  reg_out (fst (fst p)) (snd (snd p)) = false -> some_bad obl [p] = true.
Proof. intros A B C. unfold some_bad, count. cbn [filter]. rewrite A, B, C. reflexivity. Qed.

Lemma miss_coords d k io ie orc erc w ro re : pair_at d k io ie orc erc -> dual_config d -> sited d orc erc w ro re -> misses_circle d orc w ro ->
  exists d' m c, coords_of_dual d k (given w) = (d', Ok (put_coord (given w) (Some (g_lat w)) None m c)) /\ d_rec d' = k.
Proof.
  intros P DC ST [RO (c & RF & D1 & D2)]. destruct (site_usable _ _ _ _ _ _ _ _ _ P DC ST) as (c' & U & R0).
  assert (c' = c) by (destruct U as (_ & _ & _ & Q & _); rewrite RF in Q; now injection Q). subst c'.
  destruct ST as [SL MO RP Bo Be [Hr H90] RC]. destruct (usable_coords _ _ _ _ _ U) as (ol & om & NC & _ & NP & _).
  destruct (moved_spec _ _ _ _ _ _ P) as [SR PD].
  unfold coords_of_dual, dual_coords. rewrite SR. cbn [given fresh w_lat w_lt].
  unfold sc0.
  unfold dual_normal, spread. cbn [is0d isint el andb moved d_rec d_n d_o d_e].
  pose proof (pa_range _ _ _ _ _ _ P) as KR.
  replace ((k <? 0)%Z || (d_n d <=? k)%Z) with false by (symmetry; apply orb_false_iff; split; [apply Z.ltb_ge|apply Z.leb_gt]; lia).
  destruct (normal_coord_one (at_rec (d_o d) io) false true false false true (Some (g_lat w)) (Some (g_lt w))) as (l & m & c2 & zz & E1 & E2).
  destruct (normal_coord_one (at_rec (d_o d) io) true false true false false (Some (g_lat w)) (Some (g_lt w))) as (l' & m' & c3 & zz' & E3 & E4).
  change (normal_coord (at_rec (d_o d) io) (sc (Some (g_lat w))) (sc (Some (g_lt w))) = Ok (out true [l'], out true [m'], out zz' [c3], [Some (g_lat w)])) in E3.
  rewrite NC in E3. rewrite E2 in E4. assert (l = Some ol) as -> by (inversion E3; inversion E4; congruence). clear E2 E3 E4.
  rewrite E1. cbn [out el forallb isnan andb].
  destruct (wrap_twice_shift (g_lt w)) as (m1 & m2 & W1 & W2 & _).
  destruct (mlt_ok_eq _ _ _ _ _ MO W1 W2) as (S1 & S2 & F1 & F2). destruct DC as (Hh & He & E0 & EO & O90).
  pose proof (boundary_pt_at _ _ _ _ _ Hh Bo S2 F1) as B1. pose proof (boundary_pt_at _ _ _ _ _ Hh Be S1 F2) as B2.
  match goal with |- context [with_boundaries ?dd ?ll false ?o ?u] => destruct (with_boundaries_spec dd orc erc ll o u PD) as (d1 & EQ & (os & es & ->) & _) end.
  rewrite EQ. cbn [put_stores d_rec moved]. clear EQ.
  assert (LO : lats_of (hemi (d_o d)) orc (wrapped (wrapped [Some (g_lt w)])) = [Some (IZR (hemi (d_o d)) * (90 - ro))]).
  { cbn [wrapped map]. rewrite W1, W2. unfold lats_of. cbn [mapE]. rewrite B1. reflexivity. }
  assert (LE : lats_of (hemi (d_o d)) erc (wrapped [Some (g_lt w)]) = [Some (IZR (hemi (d_o d)) * (90 - re))]).
  { cbn [wrapped map]. rewrite W1. unfold lats_of. cbn [mapE]. rewrite B2. reflexivity. }
  cbv beta zeta. 
  match goal with |- context [lats_of ?a orc ?x] => change (lats_of a orc x) with (lats_of (hemi (d_o d)) orc (wrapped (wrapped [Some (g_lt w)]))) end.
  match goal with |- context [lats_of ?a erc ?x] => change (lats_of a erc x) with (lats_of (hemi (d_o d)) erc (wrapped [Some (g_lt w)])) end.
  rewrite LO, LE. cbn [combine map bind].
  change (blat (at_rec (d_o d) io)) with (blat (d_o d)). change (blat (at_rec (d_e d) ie)) with (blat (d_e d)).
  set (h := hemi (d_o d)) in *. set (o := IZR h * (90 - ro)). set (e := IZR h * (90 - re)).
  assert (A : abs_lt (Some (g_lat w)) (Some e) = false) by (apply not_true_iff_false; unfold e; rewrite lt_e; auto; lra).
  assert (B : abs_lt (Some (g_lat w)) (Some o) = false) by (apply not_true_iff_false; unfold o; rewrite lt_o with (re := re); auto; lra).
  assert (C : reg_ocb (blat (d_o d)) (Some ol) = false).
  { unfold reg_ocb. cbn. destruct (Rle_dec _ _) as [Q|]; [exfalso|reflexivity].
    destruct (normal_pt_spec h (blat (d_o d)) orc (g_lat w) (g_lt w) c RF ltac:(lra)) as (m0 & N0 & _).
    change (CoordModel.hemi (d_o d)) with h in NP. rewrite N0 in NP. injection NP as <- _.
    set (D := dist _ _) in *. assert (K : 0 < 90 - Rabs (blat (d_o d))) by (rewrite (abs_h h) by (exact Hh || lra); lra).
    rewrite (Rabs_pos_eq (_ / _)) in Q by (apply Rlt_le, Rdiv_lt_0_compat; lra).
    set (s := rr orc + c) in *. set (a := Rabs (blat (d_o d))) in *. assert (A0 : 0 <= a) by apply Rabs_pos.
    replace (Rabs (IZR h * (90 - D * ((90 - a) / s)))) with (Rabs (90 - D * ((90 - a) / s))) in Q
      by (rewrite Rabs_mult; destruct Hh as [-> | ->]; [rewrite (Rabs_pos_eq 1) by lra|rewrite (Rabs_left (-1)) by lra]; lra).
    assert (X : D * ((90 - a) / s) = D * (90 - a) / s) by (field; lra). rewrite X in Q.
    assert (Y1 : 90 - a < D * (90 - a) / s).
    { apply (Rmult_lt_reg_r s); [exact R0|]. replace (D * (90 - a) / s * s) with (D * (90 - a)) by (field; lra). nra. }
    assert (Y2 : D * (90 - a) / s < 90 + a).
    { apply (Rmult_lt_reg_r s); [exact R0|]. replace (D * (90 - a) / s * s) with (D * (90 - a)) by (field; lra). lra. }
    assert (ZZ : Rabs (90 - D * (90 - a) / s) < a) by (apply Rabs_def1; lra). lra. }
  rewrite some_bad_one by (cbn [fst snd]; unfold reg_mid, reg_out; rewrite ?A, ?B; cbn [andb]; auto).
  unfold bound_lat, reg_out, reg_mid. rewrite A, B, C. cbn [andb]. eexists _, _, _. split; [reflexivity|reflexivity].
Qed.
