(** Proofs that time differences in floating-point seconds order like whole microseconds. *)
From Coq Require Import ZArith Reals List Bool Lia Lra.
From Flocq Require Import Core Relative BinarySingleNaN.
From Verif Require Import PyBase CycleModel FloatModel FloatProofs FtimeModel FtimeProofs FtimeProofs2 FmatchModel.
Import ListNotations.
Open Scope R_scope.

Local Instance prec53_m : Prec_gt_0 53 := prec53.

(** 2^33 - 1 seconds. *)
Definition far : Z := (8589934591 * 1000000)%Z.
Lemma million : toR (whole 1000000) = 1000000 /\ fin (whole 1000000) = true.
Proof. destruct (whole_R 1000000 ltac:(lia)) as (A & B & _). auto. Qed.

Lemma sec_abs a : (Z.abs a <= far)%Z -> Rabs (IZR a / 1000000) <= 8589934591.
Proof.
  intros H. unfold far in H. apply IZR_le in H. rewrite abs_IZR, mult_IZR in H. unfold Rdiv. rewrite Rabs_mult, (Rabs_pos_eq (/ 1000000)) by lra. lra.
Qed.
Lemma sec_R a : (Z.abs a <= far)%Z -> toR (total_seconds a) = rnd (IZR a / 1000000) /\ fin (total_seconds a) = true.
Proof.
  intros H. pose proof (sec_abs a H) as A. destruct million as [E F]. destruct (whole_R a ltac:(unfold far in H; lia)) as (W & WF & _).
  destruct (div_R (whole a) (whole 1000000) WF) as [D1 D2]; [rewrite E; lra|rewrite E, W; eapply Rle_trans; [exact A|]|].
  - apply Rle_trans with (bpow radix2 40); [rewrite b40; lra|apply bpow_le; lia].
  - rewrite E, W in D1. now split.
Qed.

Lemma close_rnd x : Rabs x <= 8589934591 -> Rabs (rnd x - x) <= / 2097152.
Proof.
  intros H. destruct (Req_dec x 0) as [Z|Z].
  - subst x. change (rnd 0) with (rnd (IZR 0)). rewrite (rnd_whole 0 ltac:(lia)), Rminus_diag_eq, Rabs_R0 by reflexivity. lra.
  - pose proof (error_le_half_ulp radix2 (FLT_exp (3 - 1024 - 53) 53) (fun x => negb (Z.even x)) x) as E.
    rewrite ulp_neq_0 in E by exact Z.
    assert (M : (mag radix2 x <= 33)%Z). { apply mag_le_bpow; [exact Z|]. eapply Rle_lt_trans; [exact H|]. change (bpow radix2 33) with 8589934592. lra. }
    assert (C : bpow radix2 (cexp radix2 (FLT_exp (3 - 1024 - 53) 53) x) <= bpow radix2 (-20)) by (apply bpow_le; unfold cexp, FLT_exp; lia).
    change (bpow radix2 (-20)) with (/ 1048576) in C. eapply Rle_trans; [exact E|]. lra.
Qed.

Lemma sec_strict a b : (Z.abs a <= far)%Z -> (Z.abs b <= far)%Z -> (a < b)%Z -> rnd (IZR a / 1000000) < rnd (IZR b / 1000000).
Proof.
  intros A B H. pose proof (close_rnd _ (sec_abs a A)) as X. pose proof (close_rnd _ (sec_abs b B)) as Y.
  apply Rabs_le_inv in X. apply Rabs_le_inv in Y. assert (IZR a + 1 <= IZR b) by (rewrite <- plus_IZR; apply IZR_le; lia). lra.
Qed.
Lemma sec_lt a b : (Z.abs a <= far)%Z -> (Z.abs b <= far)%Z -> f64_lt (total_seconds a) (total_seconds b) = (a <? b)%Z.
Proof.
  intros A B. destruct (sec_R a A) as [RA FA]. destruct (sec_R b B) as [RB FB].
  destruct (Z.ltb_spec a b) as [L|L].
  - apply lt_true; [exact FA|exact FB|]. rewrite RA, RB. now apply sec_strict.
  - destruct (f64_lt (total_seconds a) (total_seconds b)) eqn:E; [|reflexivity]. apply lt_true in E; try assumption. rewrite RA, RB in E.
    assert (rnd (IZR b / 1000000) <= rnd (IZR a / 1000000)); [|lra]. apply rnd_mono. apply IZR_le in L. lra.
Qed.

Lemma sec_abs_R a : (Z.abs a <= far)%Z -> toR (f64_abs (total_seconds a)) = toR (total_seconds (Z.abs a)) /\ fin (f64_abs (total_seconds a)) = true.
Proof.
  intros A. destruct (sec_R a A) as [RA FA]. destruct (sec_R (Z.abs a)) as [RB FB]; [lia|].
  unfold f64_abs. rewrite B2R_Babs, is_finite_Babs. split; [|exact FA]. rewrite RA, RB, abs_IZR.
  replace (Rabs (IZR a) / 1000000) with (Rabs (IZR a / 1000000)) by (unfold Rdiv; rewrite Rabs_mult, (Rabs_pos_eq (/ 1000000)); lra).
  symmetry. apply round_NE_abs. auto with typeclass_instances.
Qed.
Lemma lt_same x y x' y' : fin x = true -> fin y = true -> fin x' = true -> fin y' = true -> toR x = toR x' -> toR y = toR y' -> f64_lt x y = f64_lt x' y'.
Proof. intros. unfold f64_lt. rewrite !Bltb_correct by assumption. congruence. Qed.
Lemma sec_abs_lt a b : (Z.abs a <= far)%Z -> (Z.abs b <= far)%Z -> f64_lt (f64_abs (total_seconds a)) (f64_abs (total_seconds b)) = (Z.abs a <? Z.abs b)%Z.
Proof.
  intros A B. assert (A' : (Z.abs (Z.abs a) <= far)%Z) by (lia). assert (B' : (Z.abs (Z.abs b) <= far)%Z) by (lia).
  rewrite <- sec_lt by assumption. destruct (sec_abs_R a A), (sec_abs_R b B). apply lt_same; try assumption; now apply sec_R.
Qed.

(** ** Against whole seconds *)
Lemma whole_sec k : (Z.abs k <= 8589934591)%Z -> toR (whole k) = toR (total_seconds (k * 1000000)).
Proof.
  intros K. destruct (whole_R k ltac:(lia)) as (W & _). destruct (sec_R (k * 1000000)) as [R _]; [unfold far; lia|].
  rewrite W, R, mult_IZR. replace (IZR k * 1000000 / 1000000) with (IZR k) by field. symmetry. apply rnd_whole. lia.
Qed.
Lemma sec_in a : (Z.abs a <= far)%Z -> IZR (-8589934591) <= toR (total_seconds a) <= IZR 8589934591.
Proof.
  intros A. destruct (sec_R a A) as [R _]. rewrite R. apply rnd_in; [lia|lia|]. pose proof (sec_abs a A) as S. apply Rabs_le_inv in S. lra.
Qed.
Lemma below_tol a k : (Z.abs a <= far)%Z -> (Z.abs k <= 2 ^ 53)%Z -> f64_lt (total_seconds a) (whole k) = (a <? k * 1000000)%Z.
Proof.
  intros A K. destruct (sec_R a A) as [RA FA]. destruct (whole_R k K) as (W & WF & _). destruct (Z_le_gt_dec (Z.abs k) 8589934591) as [Q|Q].
  - assert (B : (Z.abs (k * 1000000) <= far)%Z) by (unfold far; lia). rewrite <- sec_lt by assumption.
    apply lt_same; try assumption; [now apply sec_R|reflexivity|now apply whole_sec].
  - pose proof (sec_in a A) as S. destruct (Z.ltb_spec a (k * 1000000)) as [L|L].
    + apply lt_true; try assumption. rewrite W. apply Rle_lt_trans with (1 := proj2 S). apply IZR_lt. unfold far in A. lia.
    + destruct (f64_lt (total_seconds a) (whole k)) eqn:E; [|reflexivity]. apply lt_true in E; try assumption. rewrite W in E. exfalso.
      assert (IZR k <= IZR (-8589934592)) by (apply IZR_le; unfold far in A; lia). lra.
Qed.
Lemma above_tol a k : (Z.abs a <= far)%Z -> (Z.abs k <= 2 ^ 53)%Z -> f64_lt (whole k) (total_seconds a) = (k * 1000000 <? a)%Z.
Proof.
  intros A K. destruct (sec_R a A) as [RA FA]. destruct (whole_R k K) as (W & WF & _). destruct (Z_le_gt_dec (Z.abs k) 8589934591) as [Q|Q].
  - assert (B : (Z.abs (k * 1000000) <= far)%Z) by (unfold far; lia). rewrite <- sec_lt by assumption.
    apply lt_same; try assumption; [now apply sec_R|now apply whole_sec|reflexivity].
  - pose proof (sec_in a A) as S. destruct (Z.ltb_spec (k * 1000000) a) as [L|L].
    + apply lt_true; try assumption. rewrite W. apply Rlt_le_trans with (2 := proj1 S). apply IZR_lt. unfold far in A. lia.
    + destruct (f64_lt (whole k) (total_seconds a)) eqn:E; [|reflexivity]. apply lt_true in E; try assumption. rewrite W in E. exfalso.
      assert (IZR 8589934592 <= IZR k) by (apply IZR_le; unfold far in A; lia). lra.
Qed.
Lemma abs_above_tol a k : (Z.abs a <= far)%Z -> (Z.abs k <= 2 ^ 53)%Z -> f64_lt (whole k) (f64_abs (total_seconds a)) = (k * 1000000 <? Z.abs a)%Z.
Proof.
  intros A K. assert (A' : (Z.abs (Z.abs a) <= far)%Z) by (lia). rewrite <- above_tol by assumption.
  destruct (sec_abs_R a A). destruct (whole_R k K) as (W & WF & _). apply lt_same; try assumption; try reflexivity. now apply sec_R.
Qed.

(** ** The loops *)
Open Scope Z_scope.
Lemma get_In {A} (l : list A) i a : getE l i = Ok a -> In a l.
Proof.
  unfold getE. destruct (py_get l i) eqn:E; [|discriminate]. intros [= ->]. unfold py_get in E.
  repeat match type of E with (if ?c then _ else _) = _ => destruct c end; try discriminate; eapply nth_error_In; exact E.
Qed.

Section Same.
  Variables (records : Z) (dtime : list Z) (cycle : Z -> res Z) (dat : list Z) (max_tol : Z).
  Hypothesis near : forall t d, In t dtime -> In d dat -> Z.abs (t - d) <= far.
  Hypothesis tol53 : Z.abs max_tol <= 2 ^ 53.

  Lemma descend_same fuel : forall d rec s l r, In d dat -> Z.abs s <= far -> Z.abs l <= far ->
    descend_f records dtime cycle fuel d rec (total_seconds s) (total_seconds l) r = descend records dtime cycle fuel d rec s l r.
  Proof.
    induction fuel as [|f IH]; intros d rec s l r D S L; cbn [descend_f descend]; rewrite sec_abs_lt by assumption; destruct (Z.abs s <? Z.abs l); try reflexivity.
    destruct (cycle rec) as [rec'|e]; [|reflexivity]. cbn [bind]. destruct (rec' <? records); [|now apply IH].
    destruct (getE dtime rec') as [t|e] eqn:T; [|reflexivity]. cbn [bind]. apply IH; [exact D| |exact S]. apply near; [|exact D]. now apply get_In in T.
  Qed.

  Lemma main_same fuel : forall rec idat last, (match last with Some s => Z.abs s <= far | None => True end) ->
    main_loop_f records dtime cycle dat max_tol fuel rec idat (match last with Some s => Some (total_seconds s) | None => None end) =
    main_loop records dtime cycle dat (max_tol * usec) fuel rec idat last.
  Proof.
    assert (E0 : forall (rec idat : Z) (last : option Z), (match last with Some s => Z.abs s <= far | None => True end) ->
      (if idat =? 0 then match (match last with Some s => Some (total_seconds s) | None => None end) with
        | None => Err NameError | Some sdiff => if f64_lt (whole max_tol) (f64_abs sdiff) then Ok (None, rec) else Ok (Some idat, rec) end else Ok (Some idat, rec)) =
      (if idat =? 0 then match last with None => Err NameError | Some sdiff => if max_tol * usec <? Z.abs sdiff then Ok (None, rec) else Ok (Some idat, rec) end else Ok (Some idat, rec))).
    { intros rec idat [s|] H; [|reflexivity]. now rewrite abs_above_tol. }
    induction fuel as [|f IH]; intros rec idat last H; cbn [main_loop_f main_loop]; destruct ((idat <? zlen dat) && (rec <? records)); try reflexivity; try (now apply E0).
    destruct (getE dtime rec) as [t|e] eqn:T; [|reflexivity]. cbn [bind]. destruct (getE dat idat) as [d|e] eqn:D; [|reflexivity]. cbn [bind].
    apply get_In in T. apply get_In in D. pose proof (near t d T D) as N. cbv zeta.
    rewrite below_tol by (exact N || (rewrite Z.abs_opp; exact tol53)). rewrite above_tol by assumption.
    replace (- max_tol * 1000000) with (- (max_tol * usec)) by (unfold usec; ring). change 1000000 with usec.
    destruct (t - d <? - (max_tol * usec)).
    - destruct (cycle rec) as [rec'|e]; [|reflexivity]. cbn [bind]. now apply (IH rec' idat (Some (t - d))).
    - destruct (max_tol * usec <? t - d); [now apply (IH rec (idat + 1) (Some (t - d)))|].
      destruct (cycle rec) as [rec'|e]; [|reflexivity]. cbn [bind]. destruct (rec' <? records); [|reflexivity].
      destruct (getE dtime rec') as [t'|e] eqn:T'; [|reflexivity]. cbn [bind]. apply get_In in T'. rewrite descend_same; [reflexivity|exact D|now apply near|exact N].
  Qed.

  Lemma from_same rec idat : match_from_f records dtime cycle dat max_tol rec idat = match_from records dtime cycle dat (max_tol * usec) rec idat.
  Proof.
    unfold match_from_f, match_from. destruct (getE dtime rec); [|reflexivity]. cbn [bind]. destruct (getE dat idat); [|reflexivity]. cbn [bind].
    destruct (_ =? _); [reflexivity|]. now apply (main_same _ rec idat None).
  Qed.
  Lemma core_same rec idat : match_core_f records dtime cycle dat max_tol rec idat = match_core records dtime cycle dat (max_tol * usec) rec idat.
  Proof.
    unfold match_core_f, match_core. destruct (rec <? 0); [|apply from_same]. destruct (cycle rec) as [r|e]; [|reflexivity]. cbn [bind].
    destruct (records <=? r); [reflexivity|]. destruct (getE dtime r); [|reflexivity]. cbn [bind].
    destruct (skip_early _ _ _ _) as [[i|]|e]; [|reflexivity|reflexivity]. cbn [bind]. apply from_same.
  Qed.
End Same.
