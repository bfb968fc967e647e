(** Lemmas about LocModel. *)
From Coq Require Import Reals ZArith List Bool String Ascii Lia Lra.
From Verif Require Import PyBase PyString RangeModel RangeSpec RangeProofs CoordModel DualCoordModel VectorModel ScalingModel PropertiesRange LocModel LocSpec.
Import ListNotations.
Open Scope R_scope.

Lemma uth_hour t : hour_of t (uth t).
Proof.
  set (d := (t mod 86400000000)%Z). assert (D : (0 <= d < 86400000000)%Z) by (apply Z.mod_pos_bound; lia).
  exists (t / 86400000000)%Z, d. split; [split; [unfold d; pose proof (Z.div_mod t 86400000000); lia|exact D]|].
  unfold uth. fold d. unfold datetime2hr.
  pose (h := (d / 3600000000)%Z). pose (m := (d / 60000000 mod 60)%Z). pose (s := (d / 1000000 mod 60)%Z). pose (us := (d mod 1000000)%Z).
  fold h m s us.
  assert (E : (d = h * 3600000000 + m * 60000000 + s * 1000000 + us)%Z).
  { unfold h, m, s, us. Z.div_mod_to_equations. lia. }
  rewrite E at 1. rewrite !plus_IZR, !mult_IZR. field.
Qed.
Lemma hour_unique t u u' : hour_of t u -> hour_of t u' -> u = u'.
Proof. intros (d & us & [E B] & ->) (d' & us' & [E' B'] & ->). assert (us = us') by lia. subst. reflexivity. Qed.

Lemma fix_nan mn mx rng : mn < mx -> 0 < match rng with Some r => r | None => mx - mn end -> fix_range None mn mx rng = Ok None.
Proof. intros A B. unfold fix_range, range_of. destruct (Rle_dec mx mn); [lra|]. destruct (Rle_dec _ 0); [lra|]. reflexivity. Qed.
Lemma slt2glon_nan u : slt2glon None u = Ok None.
Proof.
  unfold slt2glon, hr2deg. cbn [fmap option_map]. rewrite fix_nan; [|destruct (Rlt_dec (360 - -180) 360); lra|lra]. cbn [bind]. apply fix_nan; lra.
Qed.
Lemma glon2slt_nan u : glon2slt None u = Ok None.
Proof. unfold glon2slt, deg2hr. cbn [fmap option_map]. rewrite fix_nan by lra. cbn [bind fmap option_map]. apply fix_nan; lra. Qed.
Lemma slt2glon_at t lt : exists lon, slt2glon lt (uth t) = Ok lon /\ longitude_at t lt lon.
Proof.
  destruct lt as [h|].
  - destruct (C20_slt2glon_spec h (uth t)) as [g (E & B & S)]. exists (Some g). split; [exact E|]. exists (uth t). split; [apply uth_hour|]. split; assumption.
  - exists None. split; [apply slt2glon_nan|exact I].
Qed.
Lemma glon2slt_at t lon : exists lt, glon2slt lon (uth t) = Ok lt /\ local_time_at t lon lt.
Proof.
  destruct lon as [g|].
  - destruct (C20_glon2slt_spec g (uth t)) as [h (E & B & S)]. exists (Some h). split; [exact E|]. exists (uth t). split; [apply uth_hour|]. split; assumption.
  - exists None. split; [apply glon2slt_nan|exact I].
Qed.

Lemma mapE_all {A B} (f : A -> res B) (P : A -> B -> Prop) l : (forall a, In a l -> exists b, f a = Ok b /\ P a b) -> exists bs, mapE f l = Ok bs /\ Forall2 P l bs.
Proof.
  induction l as [|a l IH]; intros H; [exists []; split; [reflexivity|constructor]|].
  destruct (H a (or_introl eq_refl)) as (b & E & p). destruct IH as (bs & E' & F); [intros x X; apply H; right; exact X|].
  exists (b :: bs). split; [cbn [mapE]; rewrite E; cbn [bind]; rewrite E'; reflexivity|constructor; assumption].
Qed.

Lemma lower_name c : lower (name c) = name c.
Proof. destruct c; reflexivity. Qed.
Lemma name_inj c c' : name c = name c' -> c = c'.
Proof. destruct c, c'; intros H; try reflexivity; discriminate. Qed.
Lemma eqb_names c c' : String.eqb (name c) (name c') = true <-> c = c'.
Proof. rewrite String.eqb_eq. split; [apply name_inj|congruence]. Qed.

Lemma method_code_spec tr c w : called c w -> method_code tr w "A2G" = code tr c "A2G".
Proof. intros C. unfold method_code. rewrite C. destruct c; cbn [name String.eqb]; reflexivity. Qed.
Lemma g2a_code_spec tr c : g2a_code tr (name c) = code tr c "G2A".
Proof. destruct c; reflexivity. Qed.

Lemma pairing_spec single ps loc vec vc mag dt prs : at_times single ps dt prs -> pairing (mkVobj single ps loc vec vc mag) dt = Ok prs.
Proof.
  intros H. inversion H; subst; unfold pairing; cbn [vo_single vo_pl hd].
  - destruct single; reflexivity.
  - reflexivity.
  - rewrite !map_length, Nat.eqb_refl. f_equal. clear. induction prs as [|[p t] l IH]; [reflexivity|]. cbn. rewrite IH. reflexivity.
Qed.
Lemma pairing_mismatch ps loc vec vc mag ts : List.length ts <> List.length ps -> pairing (mkVobj false ps loc vec vc mag) (Many ts) = Err ValueError.
Proof. intros H. unfold pairing. cbn [vo_single vo_pl]. apply Nat.eqb_neq in H. rewrite H. reflexivity. Qed.

Section Aacgm.
Context (g2a a2g : string -> fl -> fl -> fl -> Z -> fl * fl) (mlt2lon : fl -> Z -> fl).
Notation update := (update_loc g2a a2g mlt2lon).

Lemma to_mag_spec tr c p t : exists p', to_mag g2a (code tr c "G2A") (p, t) = Ok p' /\ magnetic_at g2a tr c p t p'.
Proof.
  destruct (slt2glon_at t (pl_lt p)) as (lon & E & L). unfold to_mag. rewrite E. cbn [bind].
  eexists. split; [reflexivity|]. exists lon. split; [exact L|]. cbn [pl_lat pl_lt pl_h]. split; [apply surjective_pairing|reflexivity].
Qed.
Lemma from_mag_spec tr c p t : exists p', from_mag a2g mlt2lon (code tr c "A2G") (p, t) = Ok p' /\ geographic_at a2g mlt2lon tr c p t p'.
Proof.
  unfold from_mag. set (o := a2g _ _ _ _ _). destruct (glon2slt_at t (snd o)) as (lt & E & L). rewrite E. cbn [bind].
  eexists. split; [reflexivity|]. exists (snd o). cbn [pl_lat pl_lt pl_h]. split; [fold o; apply surjective_pairing|]. split; [exact L|reflexivity].
Qed.

Lemma update_same tr dt w s : lower w = vo_loc s -> update tr dt w s = Ok s.
Proof. intros H. unfold update_loc. rewrite H, String.eqb_refl. reflexivity. Qed.

Lemma update_to_mag tr dt w s c prs : called Magnetic w -> vo_loc s = name c -> c <> Magnetic ->
  at_times (vo_single s) (vo_pl s) dt prs ->
  exists ps, update tr dt w s = Ok (with_places s (still_single s dt) ps w) /\ Forall2 (fun x p' => magnetic_at g2a tr c (fst x) (snd x) p') prs ps.
Proof.
  intros C L N A. destruct s as [single ps0 loc vec vc mag]. cbn [vo_loc vo_single vo_pl] in *. subst loc. unfold update_loc. rewrite C. cbn [vo_loc].
  assert (String.eqb (name Magnetic) (name c) = false) as -> by (destruct c; [contradiction|reflexivity|reflexivity]).
  rewrite (pairing_spec _ _ _ _ _ _ _ _ A). cbn [bind]. change (String.eqb (name Magnetic) "magnetic") with true. cbv iota. rewrite g2a_code_spec.
  destruct (mapE_all (to_mag g2a (code tr c "G2A")) (fun x p' => magnetic_at g2a tr c (fst x) (snd x) p') prs) as (ps & E & F).
  { intros [p t] _. apply to_mag_spec. }
  exists ps. rewrite E. cbn [bind]. split; [reflexivity|exact F].
Qed.
Lemma update_to_geo tr dt w s c prs : called c w -> c <> Magnetic -> vo_loc s <> name c ->
  at_times (vo_single s) (vo_pl s) dt prs ->
  exists ps, update tr dt w s = Ok (with_places s (still_single s dt) ps w) /\ Forall2 (fun x p' => geographic_at a2g mlt2lon tr c (fst x) (snd x) p') prs ps.
Proof.
  intros C N L A. destruct s as [single ps0 loc vec vc mag]. cbn [vo_loc vo_single vo_pl] in *. unfold update_loc. rewrite C. cbn [vo_loc].
  assert (String.eqb (name c) loc = false) as -> by (apply String.eqb_neq; congruence).
  rewrite (pairing_spec _ _ _ _ _ _ _ _ A). cbn [bind].
  assert (String.eqb (name c) "magnetic" = false) as -> by (destruct c; [contradiction|reflexivity|reflexivity]). cbv iota. rewrite (method_code_spec _ _ _ C).
  destruct (mapE_all (from_mag a2g mlt2lon (code tr c "A2G")) (fun x p' => geographic_at a2g mlt2lon tr c (fst x) (snd x) p') prs) as (ps & E & F).
  { intros [p t] _. apply from_mag_spec. }
  exists ps. rewrite E. cbn [bind]. split; [reflexivity|exact F].
Qed.
(** From a system that is not magnetic, the result does not depend on the system. *)
Lemma update_geo_any tr dt w s c : called c w -> c <> Magnetic -> vo_loc s <> name c ->
  update tr dt w s = update tr dt w (with_places s (vo_single s) (vo_pl s) (name Magnetic)).
Proof.
  intros C N L. unfold update_loc. unfold called in C. rewrite !C. cbn [with_places vo_loc vo_pl vo_single].
  assert (String.eqb (name c) (vo_loc s) = false) as -> by (apply String.eqb_neq; congruence).
  change (String.eqb (name c) (name Magnetic)) with (String.eqb (name c) "magnetic").
  assert (String.eqb (name c) "magnetic" = false) as -> by (destruct c; [contradiction|reflexivity|reflexivity]). reflexivity.
Qed.
Lemma update_mismatch tr ts w s : vo_single s = false -> List.length ts <> List.length (vo_pl s) -> lower w <> vo_loc s ->
  update tr (Many ts) w s = Err ValueError.
Proof.
  intros S L N. destruct s as [single ps loc vec vc mag]. cbn [vo_single vo_pl vo_loc] in *. subst. unfold update_loc.
  cbn [vo_loc]. assert (String.eqb (lower w) loc = false) as -> by (apply String.eqb_neq; exact N).
  rewrite (pairing_mismatch _ _ _ _ _ _ L). reflexivity.
Qed.
End Aacgm.
