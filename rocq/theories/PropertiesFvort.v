(** C184: the times of vorticity files in binary64. *)
From Coq Require Import String Ascii ZArith Reals List Bool Lia Lra.
From Flocq Require Import Core BinarySingleNaN.
From Verif Require Import PyBase TimeModel TimeSpec TextSpec PyString FilesModel SmagModel SmagSpec TimeProofs TimeProofs2 TimeProofs3 TimeProofs4 FilesProofs TextProofs SmagProofs LoadProofs VortModel VortSpec PropertiesVort FloatModel FloatProofs FtimeModel FtimeSpec FtimeProofs FtimeProofs2 FradProofs FsoyModel FsoyProofs PropertiesFsoy FvortModel.
Import ListNotations.
Open Scope string_scope.
Open Scope list_scope.
Open Scope Z_scope.

Lemma vort_secs_eq hh : is_finite hh = true -> (Rabs (B2R hh) <= bpow radix2 40)%R -> vort_secs hh = Ok (Zfloor (rnd (B2R hh * 3600))).
Proof.
  intros F B. destruct (whole_R 3600 ltac:(lia)) as (W & WF & _).
  destruct (mul_R hh (whole 3600) F WF) as [M1 M2].
  { rewrite W, Rabs_mult, (Rabs_pos_eq 3600) by lra. apply Rle_trans with (bpow radix2 40 * 4096)%R; [apply Rmult_le_compat; try lra; apply Rabs_pos|].
    change 4096%R with (bpow radix2 12). rewrite <- bpow_plus. apply bpow_le. lia. }
  rewrite W in M1. destruct (floor_R (f64_mul hh (whole 3600))) as [R1 R2]. rewrite M1 in R1. rewrite M2 in R2.
  pose proof (b2z_int _ _ R1) as Z. unfold vort_secs. set (x := f64_floor (f64_mul hh (whole 3600))) in *. destruct x; try discriminate R2; now rewrite Z.
Qed.

(** Later hours are never earlier times. *)
Theorem C184_order :
  forall h1 h2 s1 s2, is_finite h1 = true -> is_finite h2 = true -> (Rabs (B2R h1) <= bpow radix2 40)%R -> (Rabs (B2R h2) <= bpow radix2 40)%R ->
    (B2R h1 <= B2R h2)%R -> vort_secs h1 = Ok s1 -> vort_secs h2 = Ok s2 -> s1 <= s2.
Proof.
  intros h1 h2 s1 s2 F1 F2 B1 B2 L E1 E2. rewrite vort_secs_eq in E1, E2 by assumption. injection E1 as <-. injection E2 as <-.
  apply Zfloor_le. apply rnd_mono. lra.
Qed.

Lemma vort_secs_near hh : is_finite hh = true -> (0 <= B2R hh <= 48)%R ->
  exists s, vort_secs hh = Ok s /\ (B2R hh * 3600 - 1 - / 10000000000 < IZR s <= B2R hh * 3600 + / 10000000000)%R /\
    (forall k, (B2R hh * 3600)%R = IZR k -> s = k).
Proof.
  intros F B. exists (Zfloor (rnd (B2R hh * 3600))). split; [|split].
  - apply vort_secs_eq; [exact F|]. rewrite Rabs_pos_eq, b40; lra.
  - pose proof (rnd_bound (B2R hh * 3600)) as R. rewrite (Rabs_pos_eq (B2R hh * 3600)) in R by lra. apply Rabs_le_inv in R.
    assert (T : (tiny <= u)%R) by (apply bpow_le; lia). assert (U : (u = / 9007199254740992)%R) by reflexivity.
    assert (u * (B2R hh * 3600) <= u * 172800)%R by (apply Rmult_le_compat_l; [left; apply u_pos|lra]).
    pose proof (Zfloor_lb (rnd (B2R hh * 3600))). pose proof (Zfloor_ub (rnd (B2R hh * 3600))). lra.
  - intros k E. rewrite E. assert (K : (0 <= k <= 172800)%Z) by (split; apply le_IZR; lra). rewrite rnd_whole by lia. apply Zfloor_IZR.
Qed.

Section Loaded.
Variable pf : str -> res f64.
(** A loaded entry has the time of its hours: at most a second and 2^-33 of one before them,
    at most 2^-33 of a second after, and exactly for a whole number of seconds. *)
Definition at_hours (p : vblock f64 * vline) (c : cell f64) : Prop :=
  let hours := B2R (vb_hour (fst p)) in
  exists n s, calendar_day (vb_year (fst p)) (vb_mon (fst p)) (vb_day (fst p)) n /\ c = CT (day_us n + sec_us s) /\
    (hours * 3600 - 1 - bpow radix2 (-33) < IZR s <= hours * 3600 + bpow radix2 (-33))%R /\
    (forall k, (hours * 3600)%R = IZR k -> s = k).
Theorem C184_times_partial :
  forall sa size hs bs liness, 0 < size <= 2000000000 -> Forall vheader hs -> Forall2 (whole_vblock pf vort_secs sa) bs liness -> entries_of bs <> [] ->
    (forall b, In b bs -> is_finite (vb_hour b) = true /\ (0 <= B2R (vb_hour b) <= 48)%R) ->
    exists t cells, load_vort pf vort_secs true size sa (hs ++ concat liness) = Ok (Some t) /\ lookup (s2l "DATETIME") t = Some cells /\
      Forall2 at_hours (entries_of bs) cells.
Proof.
  intros sa size hs bs liness N H F NE HB. destruct (C64_every_entry_loaded pf vort_secs sa size hs bs liness N H F) as [_ L]. destruct (L NE) as (t & E & _ & C).
  destruct (C "DATETIME") as (cells & LK & F2); [left; cbn; tauto|]. exists t, cells. split; [exact E|]. split; [exact LK|].
  assert (HE : forall p, In p (entries_of bs) -> is_finite (vb_hour (fst p)) = true /\ (0 <= B2R (vb_hour (fst p)) <= 48)%R).
  { intros p I. unfold entries_of in I. apply in_flat_map in I. destruct I as (b & I & J). apply in_map_iff in J. destruct J as (e & <- & _). now apply HB. }
  clear - F2 HE. induction F2 as [|p c ps cs V F2 IH]; [constructor|]. constructor; [|apply IH; intros q Q; apply HE; now right].
  destruct (HE p (or_introl eq_refl)) as [FP BP]. destruct (vort_secs_near _ FP BP) as (s & S1 & S2 & S3).
  destruct V as [[K _]|[[K _]|[[K _]|[[K _]|[[_ (i & (n & s' & last & CD & SE & -> & _) & ->)]|(w & v & I & _)]]]]]; try discriminate K.
  - rewrite S1 in SE. injection SE as <-. exists n, s. split; [exact CD|]. split; [reflexivity|]. split; [|exact S3].
    change (bpow radix2 (-33)) with (/ 8589934592)%R. lra.
  - exfalso. unfold items in I. rewrite !in_app_iff in I.
    assert (G : forall ns l, In ("DATETIME", w) (combine ns l) -> In "DATETIME" ns) by (intros ns l; apply in_combine_l).
    destruct I as [I|[I|I]]; apply G in I; cbn in I; repeat (destruct I as [I|I]; [discriminate I|]); exact I.
Qed.

(** Seconds of two days written in hours: this second or the one before. *)
Theorem C184_written_partial :
  forall k hh, 0 <= k <= 172800 -> nearest_double hh (IZR k / 3600) -> vort_secs hh = Ok k \/ vort_secs hh = Ok (k - 1).
Proof.
  intros k hh K [F N]. assert (KR : (0 <= IZR k <= 172800)%R) by (split; apply IZR_le; lia).
  assert (D : (Rabs (B2R hh - IZR k / 3600) <= / 100000000000000)%R).
  { destruct (whole_R k ltac:(lia)) as (WA & FA & _). destruct (whole_R 3600 ltac:(lia)) as (WB & FB & _).
    destruct (div_R (whole k) (whole 3600) FA) as [D1 D2]; [rewrite WB; lra| |].
    - rewrite WA, WB, Rabs_pos_eq by lra. apply Rle_trans with (bpow radix2 40); [rewrite b40; lra|apply bpow_le; lia].
    - eapply Rle_trans; [apply (N _ D2)|]. rewrite D1, WA, WB. eapply Rle_trans; [apply rnd_bound|].
      assert (T : (tiny <= u)%R) by (apply bpow_le; lia). pose proof u_pos. rewrite Rabs_pos_eq by lra.
      assert (u * (IZR k / 3600) <= u * 48)%R by (apply Rmult_le_compat_l; lra).
      assert (u = / 9007199254740992)%R by reflexivity. lra. }
  apply Rabs_le_inv in D. rewrite vort_secs_eq; [|exact F|rewrite b40; apply Rabs_le; lra].
  pose proof (rnd_bound (B2R hh * 3600)) as R. apply Rabs_le_inv in R.
  assert (A : (Rabs (B2R hh * 3600) <= 172801)%R) by (apply Rabs_le; lra).
  assert (T : (tiny <= u)%R) by (apply bpow_le; lia). assert (U : (u = / 9007199254740992)%R) by reflexivity.
  assert (u * Rabs (B2R hh * 3600) <= u * 172801)%R by (apply Rmult_le_compat_l; [left; apply u_pos|exact A]).
  pose proof (Zfloor_lb (rnd (B2R hh * 3600))). pose proof (Zfloor_ub (rnd (B2R hh * 3600))). set (z := Zfloor (rnd (B2R hh * 3600))) in *.
  assert (z < k + 1) by (apply lt_IZR; rewrite plus_IZR; lra). assert (k - 2 < z) by (apply lt_IZR; rewrite minus_IZR; lra).
  assert (Z : z = k \/ z = k - 1) by lia. destruct Z as [->| ->]; [now left|now right].
Qed.
End Loaded.

(** It may be the second before: 2.050 hours are 02:03:00, and are read as 02:02:59. *)
Definition hour_2_05 : f64 := f64_div (whole 205) (whole 100).
Definition read_2_05 (w : str) : res f64 := Ok (if str_eqb w (s2l "2.050") then hour_2_05 else whole 0).
Definition late_lines : list str := s2l "2000 5 5 2.050" :: tl vdemo_lines.
Theorem C184_written_refuted :
  nearest_double hour_2_05 (205 / 100) /\
  match load_vort read_2_05 vort_secs true 400 true late_lines with
  | Ok (Some t) => lookup (s2l "DATETIME") t = Some [CT (day_us 730244 + sec_us (2 * 3600 + 2 * 60 + 59))]
  | _ => False
  end.
Proof.
  split; [apply (div_nearest 205 100); lia|]. vm_compute. reflexivity.
Qed.
Example C184_date : calendar_day 2000 5 5 730244.
Proof. apply calendar_day_spec. repeat split; vm_compute; congruence. Qed.

(** 13.650 hours are 13:39:00. *)
Definition read_13_65 (w : str) : res f64 := Ok (if str_eqb w (s2l "13.650") then f64_div (whole 1365) (whole 100) else whole 0).
Definition demo_b : vblock f64 := mkVb 2000 5 5 (f64_div (whole 1365) (whole 100)) [vdemo_e].
Example C184_case :
  match load_vort read_13_65 vort_secs true 400 true vdemo_lines with
  | Ok (Some t) => lookup (s2l "DATETIME") t = Some [CT (day_us 730244 + sec_us 49140)]
  | _ => False
  end /\ is_finite (vb_hour demo_b) = true /\ entries_of [demo_b] <> [].
Proof. split; [vm_compute; reflexivity|]. split; [reflexivity|discriminate]. Qed.

Example C184_hypotheses : Forall2 (whole_vblock read_13_65 vort_secs true) [demo_b] [vdemo_lines] /\ (0 <= B2R (vb_hour demo_b) <= 48)%R.
Proof.
  assert (V : vort_secs (vb_hour demo_b) = Ok 49140) by (vm_compute; reflexivity).
  split.
  - constructor; [|constructor]. exists (s2l "2000 5 5 13.650"), (s2l "1"), [skipn 2 vdemo_lines]. split; [reflexivity|]. split; [|split; [|split]].
    + exists (s2l "2000"), (s2l "5"), (s2l "5"), (s2l "13.650"). split; [exact (joinb (map s2l ["2000"; "5"; "5"; "13.650"]) eq_refl)|]. split; [|split; [|split; [|reflexivity]]].
      * exists "2"%char, "0"%char, "0"%char, "0"%char, 2, 0, 0, 0. repeat split; try (cbn; lia).
      * split; [|cbn; lia]. apply (written_dval (s2l "5")); [discriminate|reflexivity].
      * split; [|cbn; lia]. apply (written_dval (s2l "5")); [discriminate|reflexivity].
    + eexists. exists (ordinal 2000 5 5), 49140, (ordinal 9999 12 31). split; [apply calendar_day_spec; repeat split; vm_compute; discriminate|]. split; [exact V|]. split; [reflexivity|].
      split; [vm_compute; discriminate|]. split; [apply calendar_day_spec; repeat split; vm_compute; discriminate|]. vm_compute. reflexivity.
    + exists (s2l "1"). split; [exact (joinb [s2l "1"] eq_refl)|]. apply intb_integer. reflexivity.
    + constructor; [|constructor]. split.
      * exists (s2l "0 1 13 14 5532.5 0.0011232 3.0527"), (s2l "0 63.042 -134.232 63.147 -135.315 62.674 -134.453 62.928 -133.151 63.454 -133.977"), (s2l "1 66.751 -83.036 66.634 -84.178 66.357 -82.988 66.859 -81.876 67.192 -83.091").
        split; [reflexivity|]. split; [exact (joinb (e1 vdemo_e) eq_refl)|]. split; [exact (joinb (e2 vdemo_e) eq_refl)|exact (joinb (e3 vdemo_e) eq_refl)].
      * split; [reflexivity|]. split; [reflexivity|]. split; [reflexivity|]. intros k w _ _. eexists. reflexivity.
  - destruct (div_nearest 1365 100 ltac:(lia) ltac:(lia)) as [F N]. specialize (N (whole 14)). destruct (whole_R 14 ltac:(lia)) as (W & WF & _). specialize (N WF). rewrite W in N.
    change (vb_hour demo_b) with (f64_div (whole 1365) (whole 100)). replace (Rabs (14 - 1365 / 100)) with (35 / 100)%R in N by (rewrite Rabs_pos_eq; lra). apply Rabs_le_inv in N. lra.
Qed.

Print Assumptions C184_order.
Print Assumptions C184_times_partial.
Print Assumptions C184_written_partial.
Print Assumptions C184_written_refuted.
