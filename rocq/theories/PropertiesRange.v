(** C15, C16, C18-C21: cyclic ranges and angle/hour conversions (exact reals). *)
From Coq Require Import Reals ZArith List Bool Lia Lra.
From Verif Require Import PyBase RangeModel RangeSpec RangeProofs.
Import ListNotations.
Open Scope R_scope.

(** ** C15 *)
Theorem C15_fix_range_normalises :
  forall v mn mx rng,
    mn < mx -> 0 < eff_range mn mx rng <= mx - mn ->
    exists w, fix_range (Some v) mn mx rng = Ok (Some w) /\
      mn <= w < mx /\ shifted (eff_range mn mx rng) v w /\
      (mn <= v < mx -> w = v) /\
      (* idempotent *)
      fix_range (Some w) mn mx rng = Ok (Some w) /\
      (* NaN stays NaN *)
      fix_range None mn mx rng = Ok None.
Proof.
  intros v mn mx rng H1 H2.
  destruct (fix_range_in v mn mx rng H1 H2) as [w [A [B [C D]]]].
  exists w. split; [exact A|]. split; [exact C|]. split; [exact B|]. split; [exact D|]. split.
  - destruct (fix_range_in w mn mx rng H1 H2) as [w' [A' [_ [_ D']]]].
    rewrite A'. now rewrite (D' C).
  - unfold fix_range. rewrite range_of_ok by (tauto || lra). reflexivity.
Qed.

(** With the default range the result is the unique representative. *)
Theorem C15_default_range_unique :
  forall v w mn mx, mn < mx ->
    (fix_range (Some v) mn mx None = Ok (Some w) <-> representative (mx - mn) mn v w).
Proof.
  intros v w mn mx H. split.
  - intros E. destruct (fix_range_in v mn mx None H ltac:(simpl; lra)) as [w' [A [B [C _]]]].
    rewrite A in E. injection E as <-. split; [exact B|lra].
  - intros [S I]. apply fix_range_unique; [exact H|exact S|lra].
Qed.

Theorem C15_fix_range_rejects :
  forall v mn mx rng,
    fix_range v mn mx rng = Err ValueError <-> (mx <= mn \/ eff_range mn mx rng <= 0).
Proof.
  intros v mn mx rng. split.
  - intros E. destruct (Rle_lt_dec mx mn) as [L|L]; [now left|].
    destruct (Rle_lt_dec (eff_range mn mx rng) 0) as [L2|L2]; [now right|]. exfalso.
    destruct v as [v|].
    + destruct (fix_range_spec v mn mx rng L L2) as [w [A _]]. congruence.
    + unfold fix_range in E. rewrite range_of_ok in E by assumption. discriminate.
  - intros E. unfold fix_range. now rewrite range_of_err.
Qed.

(** Arrays: every element is treated as the scalar would be, whatever the
    other elements are. *)
Theorem C15_fix_range_elementwise :
  forall nd l mn mx rng, mn < mx -> 0 < eff_range mn mx rng ->
    exists out after, fix_range_arr nd l mn mx rng = Ok (out, after) /\
      Forall2 (fun v w => fix_range v mn mx rng = Ok w) l out.
Proof.
  intros nd l mn mx rng H1 H2. destruct (fix_range_arr_spec nd l mn mx rng H1 H2) as [out [A B]].
  eexists. eexists. split; [exact A|exact B].
Qed.

Example C15_case : fix_range (Some (-50)) 0 24 None = Ok (Some 22) /\
  fix_range (Some 700) (-180) 180 (Some 360) = Ok (Some (-20)).
Proof.
  split.
  - apply fix_range_unique; [lra| |lra]. exists 3%Z. lra.
  - destruct (fix_range_in 700 (-180) 180 (Some 360) ltac:(lra) ltac:(simpl; lra)) as [w [A [B [C _]]]].
    rewrite A. do 2 f_equal. simpl in B.
    apply (shifted_unique 360 700 w (-20) ltac:(lra) B) with (m := -180); try lra.
    exists (-2)%Z. lra.
Qed.

(** ** C16: a user supplied range wider than the interval *)

(** What does hold for every accepted range. *)
Theorem C16_any_range_partial :
  forall v mn mx rng, mn < mx -> 0 < eff_range mn mx rng ->
    exists w, fix_range (Some v) mn mx rng = Ok (Some w) /\
      shifted (eff_range mn mx rng) v w /\
      mn <= w < Rmax mx (mn + eff_range mn mx rng) /\ (mn <= v < mx -> w = v).
Proof.
  intros v mn mx rng H1 H2.
  destruct (fix_range_spec v mn mx rng H1 H2) as [w [A [B [C [D E]]]]].
  exists w. repeat split; auto.
Qed.

Theorem C16_any_range_refuted :
  exists v mn mx rng w, mn < mx /\ 0 < rng /\
    fix_range (Some v) mn mx (Some rng) = Ok (Some w) /\ ~ (mn <= w < mx).
Proof.
  exists (-1), 0, 10, 360, 359. split; [lra|]. split; [lra|]. split; [|lra].
  destruct (fix_range_spec (-1) 0 10 (Some 360)) as [w [A [B [C [D _]]]]]; simpl in *; try lra.
  rewrite A. do 2 f_equal. rewrite Rmax_right in D by lra.
  apply (shifted_unique 360 (-1) w 359 ltac:(lra) B) with (m := 0); try lra.
  exists 1%Z. lra.
Qed.

(** ** C18 *)
Theorem C18_degrees_hours :
  (forall h mn mx, exists d h', hr2deg (Some h) mn mx = Ok (Some d) /\
     (if Rlt_dec (mx - mn) 360 then mx - 360 else mn) <= d < mx /\
     deg2hr (Some d) = Ok (Some h') /\ representative 24 0 h h') /\
  (forall d mn mx, exists h d', deg2hr (Some d) = Ok (Some h) /\ 0 <= h < 24 /\
     hr2deg (Some h) mn mx = Ok (Some d') /\ shifted 360 d d' /\
     (if Rlt_dec (mx - mn) 360 then mx - 360 else mn) <= d' < mx) /\
  deg2hr None = Ok None /\ (forall mn mx, hr2deg None mn mx = Ok None).
Proof.
  split; [|split; [|split]].
  - intros h mn mx. destruct (hr2deg_spec h mn mx) as [d [A [B C]]].
    destruct (deg2hr_spec d) as [h' [A' [B' C']]]. exists d, h'.
    split; [exact A|]. split; [exact B|]. split; [exact A'|]. split; [|lra].
    eapply shifted_trans; [|exact C']. apply (shifted_scale (/ 15)) in C.
    replace (360 * / 15) with 24 in C by lra. replace (h * 15 * / 15) with h in C by lra.
    exact C.
  - intros d mn mx. destruct (deg2hr_spec d) as [h [A [B C]]].
    destruct (hr2deg_spec h mn mx) as [d' [A' [B' C']]]. exists h, d'.
    split; [exact A|]. split; [exact B|]. split; [exact A'|]. split; [|exact B'].
    eapply shifted_trans; [|exact C']. apply (shifted_scale 15) in C.
    replace (24 * 15) with 360 in C by lra. replace (d / 15 * 15) with d in C by lra.
    exact C.
  - unfold deg2hr, fix_range. simpl. rewrite range_of_ok; simpl; lra || reflexivity.
  - intros mn mx. unfold hr2deg, fix_range. simpl.
    rewrite range_of_ok; [reflexivity| |simpl; lra]. destruct (Rlt_dec (mx - mn) 360); lra.
Qed.

Example C18_case : deg2hr (Some (-30)) = Ok (Some 22).
Proof. unfold deg2hr. simpl. apply fix_range_unique; [lra| |lra]. exists 1%Z. lra. Qed.

(** ** C19 *)
Theorem C19_radians_hours :
  forall h m, exists x h', hr2rad (Some h) m = Ok (Some x) /\
    m - 2 * PI <= x < m /\
    sin x = sin (2 * PI * h / 24) /\ cos x = cos (2 * PI * h / 24) /\
    rad2hr (Some x) = Ok (Some h') /\ representative 24 0 h h' /\
    hr2rad None m = Ok None /\ rad2hr None = Ok None.
Proof.
  intros h m. pose proof PI_RGT_0. destruct (hr2rad_spec h m) as [x [A [B C]]].
  destruct (rad2hr_spec x) as [h' [A' [B' C']]]. exists x, h'.
  split; [exact A|]. split; [exact B|].
  destruct (shifted_trig _ _ C) as [S1 S2].
  replace (2 * PI * h / 24) with (h * PI / 12) by lra.
  split; [exact S1|]. split; [exact S2|]. split; [exact A'|]. split; [split; [|lra]|split].
  - eapply shifted_trans; [|exact C']. apply (shifted_scale (12 / PI)) in C.
    replace (2 * PI * (12 / PI)) with 24 in C by (field; lra).
    replace (h * PI / 12 * (12 / PI)) with h in C by (field; lra).
    replace (x * (12 / PI)) with (x * 12 / PI) in C by (field; lra). exact C.
  - unfold hr2rad, fix_range. simpl. rewrite range_of_ok; simpl; lra || reflexivity.
  - unfold rad2hr, fix_range. simpl. rewrite range_of_ok; simpl; lra || reflexivity.
Qed.

(** And the other direction: any angle comes back modulo a turn. *)
Theorem C19_hours_radians :
  forall x m, exists h x', rad2hr (Some x) = Ok (Some h) /\ 0 <= h < 24 /\
    hr2rad (Some h) m = Ok (Some x') /\ representative (2 * PI) (m - 2 * PI) x x'.
Proof.
  intros x m. pose proof PI_RGT_0. destruct (rad2hr_spec x) as [h [A [B C]]].
  destruct (hr2rad_spec h m) as [x' [A' [B' C']]]. exists h, x'.
  split; [exact A|]. split; [exact B|]. split; [exact A'|]. split; [|lra].
  eapply shifted_trans; [|exact C']. apply (shifted_scale (PI / 12)) in C.
  replace (24 * (PI / 12)) with (2 * PI) in C by field.
  replace (x * 12 / PI * (PI / 12)) with x in C by (field; lra).
  replace (h * (PI / 12)) with (h * PI / 12) in C by field. exact C.
Qed.

Example C19_case : hr2rad (Some 18) PI = Ok (Some (- PI / 2)).
Proof.
  pose proof PI_RGT_0. unfold hr2rad. simpl. apply fix_range_unique; [lra| |lra].
  exists (-1)%Z. lra.
Qed.

(** ** C20 *)
Lemma C20_slt2glon_spec s u : exists g, slt2glon (Some s) u = Ok (Some g) /\
  -180 <= g < 360 /\ shifted 360 ((s - u) * 15) g.
Proof.
  unfold slt2glon. simpl. destruct (hr2deg_spec (s - u) (-180) 360) as [d [A [B C]]].
  rewrite A. cbn [bind].
  assert (B' : -180 <= d < 360) by (destruct (Rlt_dec (360 - -180) 360); lra).
  destruct (fix_range_in d (-180) 360 (Some 360) ltac:(lra) ltac:(simpl; lra)) as [w [A2 [_ [_ D2]]]].
  exists w. split; [exact A2|]. rewrite (D2 B'). split; [exact B'|exact C].
Qed.
Lemma C20_glon2slt_spec g u : exists s, glon2slt (Some g) u = Ok (Some s) /\
  0 <= s < 24 /\ shifted 24 (g / 15 + u) s.
Proof.
  unfold glon2slt. destruct (deg2hr_spec g) as [h [A [B C]]]. rewrite A. cbn [bind].
  simpl. destruct (fix_range_in (h + u) 0 24 None ltac:(lra) ltac:(simpl; lra)) as [w [A2 [B2 [C2 _]]]].
  exists w. split; [exact A2|]. split; [exact C2|].
  simpl in B2. replace (24 - 0) with 24 in B2 by lra.
  eapply shifted_trans; [|exact B2]. now apply shifted_add.
Qed.

Theorem C20_local_time_longitude :
  (forall s u, exists g s', slt2glon (Some s) u = Ok (Some g) /\ -180 <= g < 360 /\
     glon2slt (Some g) u = Ok (Some s') /\ representative 24 0 s s') /\
  (forall g u, exists s g', glon2slt (Some g) u = Ok (Some s) /\ 0 <= s < 24 /\
     slt2glon (Some s) u = Ok (Some g') /\ -180 <= g' < 360 /\ shifted 360 g g') /\
  (* noon local time is on the meridian 15 (12 - UT) *)
  (forall u, exists g, slt2glon (Some 12) u = Ok (Some g) /\ shifted 360 (15 * (12 - u)) g).
Proof.
  split; [|split].
  - intros s u. destruct (C20_slt2glon_spec s u) as [g [A [B C]]].
    destruct (C20_glon2slt_spec g u) as [s' [A' [B' C']]]. exists g, s'.
    split; [exact A|]. split; [exact B|]. split; [exact A'|]. split; [|lra].
    eapply shifted_trans; [|exact C']. apply (shifted_scale (/ 15)) in C.
    apply (shifted_add u) in C.
    replace (360 * / 15) with 24 in C by lra.
    replace ((s - u) * 15 * / 15 + u) with s in C by lra. exact C.
  - intros g u. destruct (C20_glon2slt_spec g u) as [s [A [B C]]].
    destruct (C20_slt2glon_spec s u) as [g' [A' [B' C']]]. exists s, g'.
    split; [exact A|]. split; [exact B|]. split; [exact A'|]. split; [exact B'|].
    eapply shifted_trans; [|exact C']. apply (shifted_add (- u)) in C.
    apply (shifted_scale 15) in C. replace (24 * 15) with 360 in C by lra.
    replace ((g / 15 + u + - u) * 15) with g in C by lra.
    exact C.
  - intros u. destruct (C20_slt2glon_spec 12 u) as [g [A [B C]]]. exists g.
    split; [exact A|]. replace (15 * (12 - u)) with ((12 - u) * 15) by lra. exact C.
Qed.

Example C20_case : glon2slt (Some 90) 20 = Ok (Some 2).
Proof.
  unfold glon2slt, deg2hr. simpl.
  rewrite (fix_range_unique (90 / 15) 6 0 24) by (lra || (exists 0%Z; lra)).
  cbn [bind]. simpl. apply fix_range_unique; [lra| |lra]. exists (-1)%Z. lra.
Qed.

(** ** C21 *)
Theorem C21_hours_of_day :
  (forall h m s us, valid_tod h m s us ->
     datetime2hr h m s us = IZR (tod_us h m s us) / 3600000000 /\
     0 <= datetime2hr h m s us < 24) /\
  (forall h m s us h' m' s' us', valid_tod h m s us -> valid_tod h' m' s' us' ->
     (datetime2hr h m s us < datetime2hr h' m' s' us' <->
      (tod_us h m s us < tod_us h' m' s' us')%Z) /\
     (datetime2hr h m s us = datetime2hr h' m' s' us' <->
      (h, m, s, us) = (h', m', s', us'))).
Proof.
  assert (E : forall h m s us, datetime2hr h m s us = IZR (tod_us h m s us) / 3600000000).
  { intros. unfold datetime2hr, tod_us.
    rewrite !plus_IZR, !mult_IZR, !plus_IZR, !mult_IZR, !plus_IZR, !mult_IZR. lra. }
  split.
  - intros h m s us V. split; [apply E|]. rewrite E. unfold valid_tod in V.
    assert (T : (0 <= tod_us h m s us < 86400000000)%Z) by (unfold tod_us; lia).
    destruct T as [T1 T2]. apply IZR_le in T1. apply IZR_lt in T2. lra.
  - intros h m s us h' m' s' us' V V'. rewrite !E. unfold valid_tod in *. split; split; intros H.
    + apply lt_IZR. lra.
    + apply IZR_lt in H. lra.
    + assert (IZR (tod_us h m s us) = IZR (tod_us h' m' s' us')) as T by lra.
      apply eq_IZR in T. unfold tod_us in T.
      assert (us = us') by lia. assert (s = s') by lia. assert (m = m') by lia.
      assert (h = h') by lia. subst. reflexivity.
    + injection H as -> -> -> ->. reflexivity.
Qed.

Example C21_case : valid_tod 23 59 59 999999 /\ datetime2hr 6 30 0 0 = 6.5.
Proof. split; [unfold valid_tod; lia|]. unfold datetime2hr. lra. Qed.

(** ** C75: does fix_range leave its argument alone? *)
Theorem C75_argument_kept_partial :
  forall nd l mn mx rng, mn < mx -> 0 < eff_range mn mx rng ->
    exists out after, fix_range_arr nd l mn mx rng = Ok (out, after) /\
      (nd = false -> after = l) /\ (nd = true -> after = out).
Proof.
  intros nd l mn mx rng H1 H2. destruct (fix_range_arr_spec nd l mn mx rng H1 H2) as [out [A _]].
  eexists. eexists. split; [exact A|]. split; intros ->; reflexivity.
Qed.

Theorem C75_argument_kept_refuted :
  exists l mn mx out after, fix_range_arr true l mn mx None = Ok (out, after) /\ after <> l.
Proof.
  destruct (fix_range_arr_spec true [Some 25] 0 24 None ltac:(lra) ltac:(simpl; lra)) as [out [A B]].
  exists [Some 25], 0, 24, out, out. split; [exact A|]. intros ->.
  inversion B as [|? ? ? ? H1 H2]; subst.
  rewrite (fix_range_unique 25 1 0 24) in H1 by (lra || (exists (-1)%Z; lra)).
  injection H1 as H1. lra.
Qed.

Print Assumptions C15_fix_range_normalises.
Print Assumptions C15_default_range_unique.
Print Assumptions C15_fix_range_rejects.
Print Assumptions C15_fix_range_elementwise.
Print Assumptions C16_any_range_partial.
Print Assumptions C16_any_range_refuted.
Print Assumptions C18_degrees_hours.
Print Assumptions C19_radians_hours.
Print Assumptions C19_hours_radians.
Print Assumptions C20_local_time_longitude.
Print Assumptions C21_hours_of_day.
Print Assumptions C75_argument_kept_partial.
Print Assumptions C75_argument_kept_refuted.
