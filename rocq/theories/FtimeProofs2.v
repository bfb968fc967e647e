(** Proofs about the binary64 time conversions: hours, degrees and solar local time. *)
From Coq Require Import ZArith Reals Bool Lia Lra.
From Flocq Require Import Core Relative BinarySingleNaN.
From Verif Require Import PyBase FloatModel FloatProofs FtimeModel FtimeSpec FtimeProofs.
Open Scope R_scope.

Local Instance prec53_j : Prec_gt_0 53 := prec53.

(** ** Numbers *)
Lemma b40 : bpow radix2 40 = 1099511627776. Proof. reflexivity. Qed.
Lemma b50 : bpow radix2 50 = 1125899906842624. Proof. reflexivity. Qed.
Lemma b52 : bpow radix2 52 = 4503599627370496. Proof. reflexivity. Qed.
Lemma b60 : bpow radix2 60 = 1152921504606846976. Proof. reflexivity. Qed.
Lemma u_val : u = / 9007199254740992. Proof. reflexivity. Qed.
Lemma tiny_small : tiny <= u / 1000000000.
Proof. apply Rle_trans with (1 := tiny_u). rewrite u_val. lra. Qed.

Lemma rnd_err1 x b : Rabs x <= b -> Rabs (rnd x - x) <= u * b + tiny.
Proof. intros H. eapply Rle_trans; [apply rnd_bound|]. pose proof u_pos. apply Rplus_le_compat_r. apply Rmult_le_compat_l; lra. Qed.
Lemma rnd_in x a b : (Z.abs a <= 2 ^ 53)%Z -> (Z.abs b <= 2 ^ 53)%Z -> IZR a <= x <= IZR b -> IZR a <= rnd x <= IZR b.
Proof. intros A B [L U]. rewrite <- (rnd_whole a A), <- (rnd_whole b B). split; now apply rnd_mono. Qed.

(** ** Nearness *)
Lemma near_trans p e1 e2 a b c : near_mod p e1 a b -> near_mod p e2 b c -> near_mod p (e1 + e2) a c.
Proof.
  intros [k K] [j J]. exists (k + j)%Z. rewrite plus_IZR.
  replace (a - (c + (IZR k + IZR j) * p)) with ((a - (b + IZR k * p)) + (b - (c + IZR j * p))) by ring.
  eapply Rle_trans; [apply Rabs_triang|]. now apply Rplus_le_compat.
Qed.
Lemma near_weak p e e' a b : e <= e' -> near_mod p e a b -> near_mod p e' a b.
Proof. intros H [k K]. exists k. lra. Qed.
Lemma near_close p e a b : Rabs (a - b) <= e -> near_mod p e a b.
Proof. intros H. exists 0%Z. now rewrite Rmult_0_l, Rplus_0_r. Qed.
Lemma near_shift p e a b c : near_mod p e a b -> near_mod p e (a + c) (b + c).
Proof. intros [k K]. exists k. replace (a + c - (b + c + IZR k * p)) with (a - (b + IZR k * p)) by ring. exact K. Qed.
Lemma near_up e a b : near_mod 24 e a b -> near_mod 360 (15 * e) (15 * a) (15 * b).
Proof.
  intros [k K]. exists k. replace (15 * a - (15 * b + IZR k * 360)) with (15 * (a - (b + IZR k * 24))) by ring.
  rewrite Rabs_mult, (Rabs_pos_eq 15) by lra. lra.
Qed.
Lemma near_down e a b : near_mod 360 e a b -> near_mod 24 (e / 15) (a / 15) (b / 15).
Proof.
  intros [k K]. exists k. replace (a / 15 - (b / 15 + IZR k * 24)) with ((a - (b + IZR k * 360)) * / 15) by field.
  rewrite Rabs_mult, (Rabs_pos_eq (/ 15)) by lra. lra.
Qed.

Lemma fin15 : toR (whole 15) = 15 /\ fin (whole 15) = true.
Proof. destruct (whole_R 15 ltac:(lia)) as (A & B & _). auto. Qed.

(** ** Degrees to hours *)
Lemma deg_div x : fin x = true -> Rabs (toR x) <= bpow radix2 50 ->
  toR (f64_div x (whole 15)) = rnd (toR x / 15) /\ fin (f64_div x (whole 15)) = true /\ Rabs (rnd (toR x / 15)) <= bpow radix2 50.
Proof.
  intros F B. destruct fin15 as [E FE].
  assert (A : Rabs (toR x / 15) <= bpow radix2 50).
  { unfold Rdiv. rewrite Rabs_mult, (Rabs_pos_eq (/ 15)) by lra. pose proof (Rabs_pos (toR x)). lra. }
  destruct (div_R x (whole 15) F) as [D1 D2]; [rewrite E; lra|rewrite E; eapply Rle_trans; [exact A|apply bpow_le; lia]|].
  rewrite E in D1. split; [exact D1|]. split; [exact D2|].
  apply abs_round_le_generic; auto with typeclass_instances. apply generic_format_bpow. unfold FLT_exp. lia.
Qed.

Lemma deg2hr_ok x : fin x = true -> Rabs (toR x) <= bpow radix2 50 ->
  exists w, returns (fun n => deg2hr_f n x) w /\ fin w = true /\ 0 <= toR w <= 24 /\
    near_mod 24 (u * (Rabs (toR x) / 15 + 24) + tiny) (toR w) (toR x / 15) /\
    (0 <= toR x -> toR w < 24 /\ same_mod 24 (toR w) (rnd (toR x / 15))) /\
    (0 <= rnd (toR x / 15) < 24 -> toR w = rnd (toR x / 15)).
Proof.
  intros F B. destruct (deg_div x F B) as (D1 & D2 & D3).
  destruct (wrap_exact 0 24 24 ltac:(lia) ltac:(lia) ltac:(lia) ltac:(lia) ltac:(lia) None (f64_div x (whole 15))) as (w & N & W & FW & RW & SW & k & KW & XW);
    [right; split; reflexivity|exact D2|rewrite D1; exact D3|].
  rewrite D1 in *. exists w. split; [exists N; exact W|]. split; [exact FW|]. split; [exact RW|]. split; [|split].
  - eapply near_weak; [|eapply near_trans; [exists k; exact KW|apply near_close; apply (rnd_err1 _ (Rabs (toR x) / 15))]].
    + lra.
    + unfold Rdiv. rewrite Rabs_mult, (Rabs_pos_eq (/ 15)) by lra. lra.
  - intros P. destruct (XW (or_introl (proj1 (rnd_in (toR x / 15) 0 (2 ^ 53) ltac:(lia) ltac:(lia) ltac:(split; [lra|]; change (IZR (2 ^ 53)) with 9007199254740992; rewrite (Rabs_pos_eq _ P), b50 in B; lra))))) as [X1 X2].
    split; [exact X2|]. exists k. exact X1.
  - intros P. rewrite (SW P). exact D1.
Qed.

(** ** Hours to degrees *)
Lemma hr_mul x : fin x = true -> Rabs (toR x) <= bpow radix2 40 ->
  toR (f64_mul x (whole 15)) = rnd (15 * toR x) /\ fin (f64_mul x (whole 15)) = true /\ Rabs (rnd (15 * toR x)) <= bpow radix2 50.
Proof.
  intros F B. destruct fin15 as [E FE].
  assert (A : Rabs (15 * toR x) <= bpow radix2 50).
  { rewrite Rabs_mult, (Rabs_pos_eq 15) by lra. rewrite b40 in B. rewrite b50. lra. }
  destruct (mul_R x (whole 15) F FE) as [D1 D2]; [rewrite E, Rmult_comm; eapply Rle_trans; [exact A|apply bpow_le; lia]|].
  rewrite E, Rmult_comm in D1. split; [exact D1|]. split; [exact D2|].
  apply abs_round_le_generic; auto with typeclass_instances. apply generic_format_bpow. unfold FLT_exp. lia.
Qed.

Lemma hr2deg_lim_ok x mn mx : fin x = true -> Rabs (toR x) <= bpow radix2 40 -> (- 2 ^ 50 <= mn <= 0 /\ 180 <= mx <= 2 ^ 50 /\ (mx - mn < 360 -> mx <= 360))%Z ->
  let lo := if (mx - mn <? 360)%Z then (mx - 360)%Z else mn in
  exists w, returns (fun n => hr2deg_lim n x mn mx) w /\ fin w = true /\ IZR lo <= toR w <= IZR mx /\
    near_mod 360 (u * (15 * Rabs (toR x) + 360) + tiny) (toR w) (15 * toR x) /\
    ((lo <= -180)%Z \/ IZR lo <= rnd (15 * toR x) -> toR w < IZR mx /\ same_mod 360 (toR w) (rnd (15 * toR x))) /\
    (IZR lo <= rnd (15 * toR x) < IZR mx -> toR w = rnd (15 * toR x)).
Proof.
  intros F B HL lo. destruct (hr_mul x F B) as (D1 & D2 & D3).
  assert (LO : (- 2 ^ 50 <= lo <= 0 /\ 360 <= mx - lo)%Z) by (unfold lo; destruct (Z.ltb_spec (mx - mn) 360); lia).
  destruct (wrap_exact lo mx 360 ltac:(lia) ltac:(lia) ltac:(lia) ltac:(lia) ltac:(lia) (Some (whole 360)) (f64_mul x (whole 15))) as (w & N & W & FW & RW & SW & k & KW & XW);
    [left; reflexivity|exact D2|rewrite D1; exact D3|].
  rewrite D1 in *. exists w. split; [exists N; exact W|]. split; [exact FW|]. split; [exact RW|]. split; [|split].
  - eapply near_weak; [|eapply near_trans; [exists k; exact KW|apply near_close; apply (rnd_err1 _ (15 * Rabs (toR x)))]].
    + lra.
    + rewrite Rabs_mult, (Rabs_pos_eq 15) by lra. lra.
  - intros P. assert (Q : IZR lo <= rnd (15 * toR x) \/ 2 * IZR lo <= - (360)) by (destruct P as [P|P]; [right; apply IZR_le in P; lra|left; exact P]).
    destruct (XW Q) as [X1 X2]. split; [exact X2|]. exists k. exact X1.
  - intros P. rewrite (SW P). exact D1.
Qed.

Lemma hr2deg_ok x : fin x = true -> Rabs (toR x) <= bpow radix2 40 ->
  exists w, returns (fun n => hr2deg_f n x) w /\ fin w = true /\ -180 <= toR w < 360 /\
    near_mod 360 (u * (15 * Rabs (toR x)) + tiny) (toR w) (15 * toR x) /\
    (-180 <= rnd (15 * toR x) < 360 -> toR w = rnd (15 * toR x)).
Proof.
  intros F B. destruct (hr2deg_lim_ok x (-180) 360 F B ltac:(lia)) as (w & W & FW & RW & _ & XW & SW).
  change (360 - -180 <? 360)%Z with false in *. cbv iota in *.
  destruct (XW (or_introl (Z.le_refl _))) as [X1 X2].
  exists w. split; [exact W|]. split; [exact FW|]. split; [split; [apply RW|exact X1]|]. split; [|exact SW].
  eapply near_weak; [|eapply near_trans; [instantiate (1 := rnd (15 * toR x)); instantiate (1 := 0)|apply near_close; apply (rnd_err1 _ (15 * Rabs (toR x)))]].
  - lra.
  - destruct X2 as [k K]. exists k. replace (toR w - (rnd (15 * toR x) + IZR k * 360)) with 0 by lra. rewrite Rabs_R0. lra.
  - rewrite Rabs_mult, (Rabs_pos_eq 15) by lra. lra.
Qed.

(** ** The largest floats below 24 and 360 *)
Lemma below x m e : isf x -> (53 + e >= 1)%Z -> (-1074 <= e <= 0)%Z -> bpow radix2 (52 + e) <= x < IZR m -> x <= IZR m - bpow radix2 e.
Proof.
  intros F He He2 [L U]. apply FLT_format_generic in F; [|exact prec53]. destruct F as [[n f] E H G]. unfold F2R in E. cbn [Fnum Fexp] in *.
  assert (P : 0 < bpow radix2 e) by apply bpow_gt_0.
  assert (Ef : (e <= f)%Z).
  { destruct (Z_lt_le_dec f e) as [Q|Q]; [exfalso|exact Q].
    assert (X : x < bpow radix2 (53 + f)).
    { rewrite E, bpow_plus. apply Rmult_lt_compat_r; [apply bpow_gt_0|]. change (bpow radix2 53) with (IZR (radix2 ^ 53)). apply IZR_lt. lia. }
    assert (bpow radix2 (53 + f) <= bpow radix2 (52 + e)) by (apply bpow_le; lia). lra. }
  set (N := (n * 2 ^ (f - e))%Z). assert (EN : x = IZR N * bpow radix2 e).
  { unfold N. rewrite mult_IZR. change (2 ^ (f - e))%Z with (radix2 ^ (f - e))%Z. rewrite (IZR_Zpower radix2) by lia. rewrite E, Rmult_assoc, <- bpow_plus. do 2 f_equal. lia. }
  assert (EM : IZR m = IZR (m * 2 ^ (- e)) * bpow radix2 e).
  { rewrite mult_IZR. change (2 ^ (- e))%Z with (radix2 ^ (- e))%Z. rewrite (IZR_Zpower radix2) by lia. rewrite Rmult_assoc, <- bpow_plus. replace (- e + e)%Z with 0%Z by lia. change (bpow radix2 0) with 1. ring. }
  rewrite EN, EM in *. apply Rmult_lt_reg_r in U; [|exact P]. apply lt_IZR in U.
  assert (IZR N <= IZR (m * 2 ^ (- e)) - 1) by (rewrite <- minus_IZR; apply IZR_le; lia).
  replace (IZR (m * 2 ^ (- e)) * bpow radix2 e - bpow radix2 e) with ((IZR (m * 2 ^ (- e)) - 1) * bpow radix2 e) by ring.
  apply Rmult_le_compat_r; [|assumption]. now left.
Qed.

Definition pred24 : f64 := @B754_finite 53 1024 false 6755399441055743 (-48) eq_refl.
Definition pred360 : f64 := @B754_finite 53 1024 false 6333186975989759 (-44) eq_refl.
Lemma toR_pred24 : toR pred24 = 24 - / 281474976710656.
Proof. unfold pred24, B2R, F2R, Defs.Fnum, Defs.Fexp. cbn [cond_Zopp bpow Z.opp]. change (Z.pow_pos radix2 48) with 281474976710656%Z. lra. Qed.
Lemma toR_pred360 : toR pred360 = 360 - / 17592186044416.
Proof. unfold pred360, B2R, F2R, Defs.Fnum, Defs.Fexp. cbn [cond_Zopp bpow Z.opp]. change (Z.pow_pos radix2 44) with 17592186044416%Z. lra. Qed.

Lemma deg_below y : 0 <= y <= toR pred360 -> 0 <= rnd (y / 15) <= toR pred24.
Proof.
  intros [A B]. split.
  - rewrite <- (rnd_whole 0 ltac:(lia)). apply rnd_mono. lra.
  - rewrite <- (rnd_id pred24). apply rnd_mono. rewrite toR_pred360 in B. rewrite toR_pred24. lra.
Qed.
Lemma hr_below y : 0 <= y <= toR pred24 -> 0 <= rnd (15 * y) <= toR pred360.
Proof.
  intros [A B]. split.
  - rewrite <- (rnd_whole 0 ltac:(lia)). apply rnd_mono. lra.
  - assert (E : rnd (15 * toR pred24) = toR pred360).
    { destruct (hr_mul pred24 eq_refl) as (D1 & _). { rewrite toR_pred24, b40, Rabs_pos_eq; lra. }
      rewrite <- D1. f_equal. apply B2SF_inj. vm_compute. reflexivity. }
    rewrite <- E. apply rnd_mono. lra.
Qed.
Lemma float_below_24 x : 0 <= toR x < 24 -> toR x <= toR pred24.
Proof.
  intros [A B]. rewrite toR_pred24. destruct (Rlt_le_dec (toR x) 16) as [Q|Q]; [lra|].
  apply (below (toR x) 24 (-48)); [apply generic_format_B2R|lia|lia|]. split; [exact Q|exact B].
Qed.
Lemma float_below_360 x : 0 <= toR x < 360 -> toR x <= toR pred360.
Proof.
  intros [A B]. rewrite toR_pred360. destruct (Rlt_le_dec (toR x) 256) as [Q|Q]; [lra|].
  apply (below (toR x) 360 (-44)); [apply generic_format_B2R|lia|lia|]. split; [exact Q|exact B].
Qed.

Lemma returns_det f a b : returns f a -> returns f b -> a = b.
Proof. intros [N H] [M K]. pose proof (H (max N M) ltac:(lia)). pose proof (K (max N M) ltac:(lia)). congruence. Qed.
Lemma returns_bind (f : nat -> res f64) (g : nat -> f64 -> res f64) a b : returns f a -> returns (fun n => g n a) b -> returns (fun n => x <- f n ;; g n x) b.
Proof. intros [N H] [M K]. exists (max N M). intros n Hn. rewrite (H n ltac:(lia)). cbn [bind]. apply K. lia. Qed.

(** ** Conversions inside one turn *)
Lemma hr2deg_inside x : fin x = true -> -12 <= toR x < 24 ->
  exists d, returns (fun n => hr2deg_f n x) d /\ fin d = true /\ toR d = rnd (15 * toR x).
Proof.
  intros F H. destruct (hr2deg_ok x F) as (d & D & FD & _ & _ & SD); [rewrite b40; apply Rabs_le; lra|].
  exists d. split; [exact D|]. split; [exact FD|]. apply SD. split.
  - rewrite <- (rnd_whole (-180) ltac:(lia)). apply rnd_mono. lra.
  - destruct (Rlt_le_dec (toR x) 0) as [Q|Q].
    + apply Rle_lt_trans with 0; [|lra]. rewrite <- (rnd_whole 0 ltac:(lia)). apply rnd_mono. lra.
    + destruct (hr_below (toR x)) as [_ P]; [split; [exact Q|apply float_below_24; lra]|]. rewrite toR_pred360 in P. lra.
Qed.

(** ** Round trips inside one turn *)
Lemma hours_there_and_back x : fin x = true -> 0 <= toR x < 24 ->
  exists d y, returns (fun n => hr2deg_f n x) d /\ returns (fun n => deg2hr_f n d) y /\ 0 <= toR d < 360 /\ 0 <= toR y < 24 /\
    Rabs (toR d - 15 * toR x) <= u * (15 * toR x) + tiny /\ Rabs (toR y - toR x) <= 4 * u * toR x + 2 * tiny.
Proof.
  intros F H. pose proof (float_below_24 x H) as H1. destruct (hr_below (toR x) ltac:(lra)) as [P1 P2]. rewrite toR_pred360 in P2.
  destruct (hr2deg_ok x F) as (d & D & FD & RD & _ & SD); [rewrite b40, Rabs_pos_eq; lra|]. specialize (SD ltac:(lra)).
  destruct (deg_below (toR d)) as [Q1 Q2]; [rewrite SD, toR_pred360; lra|]. rewrite toR_pred24 in Q2.
  destruct (deg2hr_ok d FD) as (y & Y & FY & RY & _ & _ & SY); [rewrite b50, Rabs_pos_eq; lra|]. specialize (SY ltac:(lra)).
  pose proof (rnd_err1 (15 * toR x) (15 * toR x) ltac:(rewrite Rabs_pos_eq; lra)) as E1. rewrite <- SD in E1.
  pose proof (rnd_err1 (toR d / 15) (toR d / 15) ltac:(rewrite Rabs_pos_eq; lra)) as E2. rewrite <- SY in E2.
  exists d, y. split; [exact D|]. split; [exact Y|]. split; [lra|]. split; [lra|]. split; [exact E1|].
  apply Rabs_le. apply Rabs_le_inv in E1. apply Rabs_le_inv in E2. pose proof tiny_pos. rewrite u_val in *. lra.
Qed.
Lemma degrees_there_and_back x : fin x = true -> 0 <= toR x < 360 ->
  exists h y, returns (fun n => deg2hr_f n x) h /\ returns (fun n => hr2deg_f n h) y /\ 0 <= toR h < 24 /\ 0 <= toR y < 360 /\
    Rabs (toR h - toR x / 15) <= u * (toR x / 15) + tiny /\ Rabs (toR y - toR x) <= 4 * u * toR x + 32 * tiny.
Proof.
  intros F H. pose proof (float_below_360 x H) as H1. destruct (deg_below (toR x) ltac:(lra)) as [P1 P2]. pose proof P2 as P2'. rewrite toR_pred24 in P2.
  destruct (deg2hr_ok x F) as (h & D & FD & RD & _ & _ & SD); [rewrite b50, Rabs_pos_eq; lra|]. specialize (SD ltac:(lra)).
  destruct (hr_below (toR h)) as [Q1 Q2]; [rewrite SD; lra|]. rewrite toR_pred360 in Q2.
  destruct (hr2deg_ok h FD) as (y & Y & FY & RY & _ & SY); [rewrite b40, Rabs_pos_eq; lra|]. specialize (SY ltac:(lra)).
  pose proof (rnd_err1 (toR x / 15) (toR x / 15) ltac:(rewrite Rabs_pos_eq; lra)) as E1. rewrite <- SD in E1.
  pose proof (rnd_err1 (15 * toR h) (15 * toR h) ltac:(rewrite Rabs_pos_eq; lra)) as E2. rewrite <- SY in E2.
  exists h, y. split; [exact D|]. split; [exact Y|]. split; [lra|]. split; [lra|]. split; [exact E1|].
  apply Rabs_le. apply Rabs_le_inv in E1. apply Rabs_le_inv in E2. pose proof tiny_pos. rewrite u_val in *. lra.
Qed.

(** ** Round trips of any value *)
Lemma hours_round x : fin x = true -> Rabs (toR x) <= bpow radix2 40 ->
  exists d y, returns (fun n => hr2deg_f n x) d /\ returns (fun n => deg2hr_f n d) y /\ near_mod 24 (u * (Rabs (toR x) + 50)) (toR y) (toR x).
Proof.
  intros F B. destruct (hr2deg_ok x F B) as (d & D & FD & RD & ND & _).
  assert (AD : Rabs (toR d) <= 360) by (apply Rabs_le; lra).
  destruct (deg2hr_ok d FD) as (y & Y & FY & RY & NY & _); [rewrite b50; lra|].
  exists d, y. split; [exact D|]. split; [exact Y|].
  apply near_down in ND. replace (15 * toR x / 15) with (toR x) in ND by field.
  eapply near_weak; [|eapply near_trans; [exact NY|exact ND]]. pose proof tiny_small. pose proof tiny_pos. rewrite u_val in *. lra.
Qed.
Lemma degrees_round x : fin x = true -> Rabs (toR x) <= bpow radix2 50 ->
  exists h y, returns (fun n => deg2hr_f n x) h /\ returns (fun n => hr2deg_f n h) y /\ near_mod 360 (u * (Rabs (toR x) + 721)) (toR y) (toR x).
Proof.
  intros F B. destruct (deg2hr_ok x F B) as (h & D & FD & RD & ND & _).
  assert (AD : Rabs (toR h) <= 24) by (apply Rabs_le; lra).
  destruct (hr2deg_ok h FD) as (y & Y & FY & RY & NY & _); [rewrite b40; lra|].
  exists h, y. split; [exact D|]. split; [exact Y|].
  apply near_up in ND. replace (15 * (toR x / 15)) with (toR x) in ND by field.
  eapply near_weak; [|eapply near_trans; [exact NY|exact ND]]. pose proof tiny_small. pose proof tiny_pos. rewrite u_val in *. lra.
Qed.

(** ** The hours of the day *)
Lemma whole_fin z : (Z.abs z <= 2 ^ 53)%Z -> toR (whole z) = IZR z /\ fin (whole z) = true.
Proof. intros H. destruct (whole_R z H) as (A & B & _). auto. Qed.
Lemma micro_val : Rabs (toR micro - / 1000000) <= / 9444732965739290427392.
Proof. unfold micro, B2R, F2R, Defs.Fnum, Defs.Fexp. cbn [cond_Zopp bpow Z.opp]. change (Z.pow_pos radix2 72) with 4722366482869645213696%Z. apply Rabs_le. lra. Qed.
Lemma small1000 z : Rabs z <= bpow radix2 40 -> Rabs z <= bpow radix2 1000.
Proof. intros H. eapply Rle_trans; [exact H|]. apply bpow_le. lia. Qed.

Lemma hours_of_day_ok h m s us : time_of_day h m s us ->
  fin (datetime2hr_f h m s us) = true /\ 0 <= toR (datetime2hr_f h m s us) /\ Rabs (toR (datetime2hr_f h m s us) - hours_exact h m s us) <= 64 * u.
Proof.
  intros (Hh & Hm & Hs & Hu). unfold datetime2hr_f. pose proof tiny_small as TS. pose proof tiny_pos as TP.
  assert (IH : 0 <= IZR h <= 23) by (split; apply IZR_le; lia). assert (IM : 0 <= IZR m <= 59) by (split; apply IZR_le; lia).
  assert (IS : 0 <= IZR s <= 59) by (split; apply IZR_le; lia). assert (IU : 0 <= IZR us <= 999999) by (split; apply IZR_le; lia).
  destruct (whole_fin h ltac:(lia)) as [Eh Fh]. destruct (whole_fin m ltac:(lia)) as [Em Fm]. destruct (whole_fin s ltac:(lia)) as [Es Fs]. destruct (whole_fin us ltac:(lia)) as [Eu Fu].
  destruct (whole_fin 60 ltac:(lia)) as [E60 F60]. destruct (whole_fin 3600 ltac:(lia)) as [E36 F36].
  pose proof micro_val as MV. apply Rabs_le_inv in MV.
  (* minutes *)
  destruct (div_R (whole m) (whole 60) Fm) as [A1 A2]; [rewrite E60; lra|rewrite Em, E60; apply small1000; rewrite b40; apply Rabs_le; lra|]. rewrite Em, E60 in A1.
  pose proof (rnd_err1 (IZR m / 60) 1 ltac:(apply Rabs_le; lra)) as A3. rewrite <- A1 in A3. apply Rabs_le_inv in A3.
  destruct (rnd_in (IZR m / 60) 0 1 ltac:(lia) ltac:(lia) ltac:(lra)) as [A4 A5]. rewrite <- A1 in A4, A5.
  set (a := f64_div (whole m) (whole 60)) in *. clearbody a.
  (* hours and minutes *)
  destruct (add_R (whole h) a Fh A2) as [B1 B2]; [rewrite Eh; apply small1000; rewrite b40; apply Rabs_le; lra|]. rewrite Eh in B1.
  pose proof (rnd_err1 (IZR h + toR a) 24 ltac:(apply Rabs_le; lra)) as B3. rewrite <- B1 in B3. apply Rabs_le_inv in B3.
  destruct (rnd_in (IZR h + toR a) 0 24 ltac:(lia) ltac:(lia) ltac:(lra)) as [B4 B5]. rewrite <- B1 in B4, B5.
  set (b := f64_add (whole h) a) in *. clearbody b.
  (* microseconds *)
  assert (U1 : 0 <= IZR us * toR micro) by (apply Rmult_le_pos; lra).
  assert (U2 : Rabs (IZR us * toR micro - IZR us / 1000000) <= u).
  { replace (IZR us * toR micro - IZR us / 1000000) with (IZR us * (toR micro - / 1000000)) by field.
    rewrite Rabs_mult, (Rabs_pos_eq (IZR us)) by lra. rewrite u_val.
    apply Rle_trans with (1048576 * / 9444732965739290427392); [|lra].
    apply Rmult_le_compat; [lra|apply Rabs_pos|lra|apply micro_val]. }
  apply Rabs_le_inv in U2. assert (U3 : IZR us * toR micro <= 1) by (rewrite u_val in U2; lra).
  destruct (mul_R (whole us) micro Fu eq_refl) as [C1 C2]; [rewrite Eu; apply small1000; rewrite b40; apply Rabs_le; lra|]. rewrite Eu in C1.
  pose proof (rnd_err1 (IZR us * toR micro) 1 ltac:(apply Rabs_le; lra)) as C3. rewrite <- C1 in C3. apply Rabs_le_inv in C3.
  destruct (rnd_in (IZR us * toR micro) 0 1 ltac:(lia) ltac:(lia) ltac:(lra)) as [C4 C5]. rewrite <- C1 in C4, C5.
  set (c := f64_mul (whole us) micro) in *. clearbody c.
  (* seconds *)
  destruct (add_R (whole s) c Fs C2) as [D1 D2]; [rewrite Es; apply small1000; rewrite b40; apply Rabs_le; lra|]. rewrite Es in D1.
  pose proof (rnd_err1 (IZR s + toR c) 60 ltac:(apply Rabs_le; lra)) as D3. rewrite <- D1 in D3. apply Rabs_le_inv in D3.
  destruct (rnd_in (IZR s + toR c) 0 60 ltac:(lia) ltac:(lia) ltac:(lra)) as [D4 D5]. rewrite <- D1 in D4, D5.
  set (d := f64_add (whole s) c) in *. clearbody d.
  destruct (div_R d (whole 3600) D2) as [G1 G2]; [rewrite E36; lra|rewrite E36; apply small1000; rewrite b40; apply Rabs_le; lra|]. rewrite E36 in G1.
  pose proof (rnd_err1 (toR d / 3600) 1 ltac:(apply Rabs_le; lra)) as G3. rewrite <- G1 in G3. apply Rabs_le_inv in G3.
  destruct (rnd_in (toR d / 3600) 0 1 ltac:(lia) ltac:(lia) ltac:(lra)) as [G4 G5]. rewrite <- G1 in G4, G5.
  set (g := f64_div d (whole 3600)) in *. clearbody g.
  (* all *)
  destruct (add_R b g B2 G2) as [K1 K2]; [apply small1000; rewrite b40; apply Rabs_le; lra|].
  pose proof (rnd_err1 (toR b + toR g) 25 ltac:(apply Rabs_le; lra)) as K3. rewrite <- K1 in K3. apply Rabs_le_inv in K3.
  destruct (rnd_in (toR b + toR g) 0 25 ltac:(lia) ltac:(lia) ltac:(lra)) as [K4 K5]. rewrite <- K1 in K4, K5.
  split; [exact K2|]. split; [exact K4|].
  unfold hours_exact. apply Rabs_le. rewrite u_val in *. lra.
Qed.

Lemma hours_exact_micros h m s us : hours_exact h m s us = IZR (micros_of_day h m s us) / 3600000000.
Proof. unfold hours_exact, micros_of_day. rewrite plus_IZR, mult_IZR, plus_IZR, mult_IZR, plus_IZR, mult_IZR. field. Qed.

Lemma hours_of_day_below h m s us : time_of_day h m s us -> toR (datetime2hr_f h m s us) < 24.
Proof.
  intros T. destruct (hours_of_day_ok h m s us T) as (_ & _ & E). rewrite hours_exact_micros in E.
  assert (IZR (micros_of_day h m s us) <= 86399999999) by (apply IZR_le; unfold micros_of_day; destruct T as (A & B & C & D); lia).
  apply Rabs_le_inv in E. rewrite u_val in E. lra.
Qed.
Lemma hours_of_day_lt h m s us h' m' s' us' : time_of_day h m s us -> time_of_day h' m' s' us' ->
  (micros_of_day h m s us < micros_of_day h' m' s' us')%Z -> toR (datetime2hr_f h m s us) < toR (datetime2hr_f h' m' s' us').
Proof.
  intros T T' L. destruct (hours_of_day_ok h m s us T) as (_ & _ & E). destruct (hours_of_day_ok h' m' s' us' T') as (_ & _ & E').
  rewrite hours_exact_micros in E, E'. apply Rabs_le_inv in E. apply Rabs_le_inv in E'.
  assert (IZR (micros_of_day h m s us) + 1 <= IZR (micros_of_day h' m' s' us')) by (rewrite <- plus_IZR; apply IZR_le; lia).
  rewrite u_val in *. lra.
Qed.

(** ** Solar local time *)
Lemma hr2deg_wrap_again g : fin g = true -> -180 <= toR g < 360 -> returns (fun n => fix_range_f n g (whole (-180)) (whole 360) (Some (whole 360))) g.
Proof.
  intros F R. destruct (wrap_exact (-180) 360 360 ltac:(lia) ltac:(lia) ltac:(lia) ltac:(lia) ltac:(lia) (Some (whole 360)) g) as (w & N & W & _ & _ & SW & _);
    [left; reflexivity|exact F|rewrite b50; apply Rabs_le; lra|]. rewrite (SW R) in W. exists N. exact W.
Qed.

Lemma slt2glon_ok slt uth : fin slt = true -> fin uth = true -> 0 <= toR uth <= 24 -> Rabs (toR slt) <= bpow radix2 39 ->
  exists g, returns (fun n => slt2glon_f n slt uth) g /\ fin g = true /\ -180 <= toR g < 360 /\
    near_mod 360 (u * (31 * (Rabs (toR slt) + 25))) (toR g) (15 * (toR slt - toR uth)).
Proof.
  intros F FU RU B. pose proof tiny_small as TS. pose proof tiny_pos as TP.
  assert (B39 : bpow radix2 39 = 549755813888) by reflexivity. rewrite B39 in B.
  assert (A : Rabs (toR slt - toR uth) <= Rabs (toR slt) + 24).
  { unfold Rminus. eapply Rle_trans; [apply Rabs_triang|]. rewrite Rabs_Ropp, (Rabs_pos_eq (toR uth)) by lra. lra. }
  pose proof (Rabs_pos (toR slt)) as P0.
  destruct (sub_R slt uth F FU) as [S1 S2]; [apply small1000; rewrite b40; lra|].
  pose proof (rnd_err1 _ _ A) as E1. rewrite <- S1 in E1. set (d := f64_sub slt uth) in *.
  assert (AD : Rabs (toR d) <= (1 + u) * (Rabs (toR slt) + 24) + tiny).
  { replace (toR d) with ((toR d - (toR slt - toR uth)) + (toR slt - toR uth)) by ring. eapply Rle_trans; [apply Rabs_triang|]. lra. }
  destruct (hr2deg_ok d S2) as (g & G & FG & RG & NG & _); [rewrite b40; rewrite u_val in *; lra|].
  exists g. split; [|split; [exact FG|split; [exact RG|]]].
  - unfold slt2glon_f. apply (returns_bind (fun n => hr2deg_f n d)) with (a := g); [exact G|]. now apply hr2deg_wrap_again.
  - eapply near_weak; [|eapply near_trans; [exact NG|apply near_up; apply near_close; exact E1]]. rewrite u_val in *. lra.
Qed.

Lemma slt2glon_inside slt uth : fin slt = true -> fin uth = true -> 0 <= toR uth <= 24 -> 0 <= toR slt < 24 -> -12 <= toR slt - toR uth ->
  exists g, returns (fun n => slt2glon_f n slt uth) g /\ Rabs (toR g - 15 * (toR slt - toR uth)) <= 1000 * u.
Proof.
  intros F FU RU R D. pose proof tiny_small as TS. pose proof tiny_pos as TP.
  destruct (sub_R slt uth F FU) as [S1 S2]; [apply small1000; rewrite b40; apply Rabs_le; lra|].
  assert (L : -12 <= toR (f64_sub slt uth) < 24).
  { rewrite S1. split.
    - rewrite <- (rnd_whole (-12) ltac:(lia)). apply rnd_mono. lra.
    - apply Rle_lt_trans with (toR slt); [|lra]. rewrite <- (rnd_id slt) at 2. apply rnd_mono. lra. }
  pose proof (rnd_err1 (toR slt - toR uth) 24 ltac:(apply Rabs_le; lra)) as E1. rewrite <- S1 in E1.
  set (d := f64_sub slt uth) in *.
  destruct (hr2deg_inside d S2 L) as (g & G & FG & EG).
  destruct (hr2deg_ok d S2) as (g' & G' & _ & RG & _); [rewrite b40; apply Rabs_le; lra|]. rewrite (returns_det _ _ _ G' G) in RG. clear g' G'.
  pose proof (rnd_err1 (15 * toR d) 360 ltac:(apply Rabs_le; lra)) as E2. rewrite <- EG in E2.
  exists g. split.
  - unfold slt2glon_f. apply (returns_bind (fun n => hr2deg_f n d)) with (a := g); [exact G|]. now apply hr2deg_wrap_again.
  - apply Rabs_le. apply Rabs_le_inv in E1. apply Rabs_le_inv in E2. rewrite u_val in *. lra.
Qed.

Lemma glon2slt_ok glon uth : fin glon = true -> fin uth = true -> 0 <= toR uth <= 24 -> Rabs (toR glon) <= bpow radix2 50 ->
  exists s, returns (fun n => glon2slt_f n glon uth) s /\ fin s = true /\ 0 <= toR s < 24 /\
    near_mod 24 (u * (Rabs (toR glon) / 15 + 73)) (toR s) (toR glon / 15 + toR uth).
Proof.
  intros F FU RU B. pose proof tiny_small as TS. pose proof tiny_pos as TP.
  destruct (deg2hr_ok glon F B) as (w & W & FW & RW & NW & _).
  destruct (add_R w uth FW FU) as [S1 S2]; [apply small1000; rewrite b40; apply Rabs_le; lra|].
  destruct (rnd_in (toR w + toR uth) 0 48 ltac:(lia) ltac:(lia) ltac:(lra)) as [S3 S4].
  pose proof (rnd_err1 (toR w + toR uth) 48 ltac:(apply Rabs_le; lra)) as E1. rewrite <- S1 in *. set (d := f64_add w uth) in *.
  destruct (wrap_exact 0 24 24 ltac:(lia) ltac:(lia) ltac:(lia) ltac:(lia) ltac:(lia) None d) as (s & N & WS & FS & RS & _ & k & _ & XS);
    [right; split; reflexivity|exact S2|rewrite b50; apply Rabs_le; lra|].
  destruct (XS (or_introl S3)) as [X1 X2].
  exists s. split; [|split; [exact FS|split; [split; [apply RS|exact X2]|]]].
  - unfold glon2slt_f. apply (returns_bind (fun n => deg2hr_f n glon)) with (a := w); [exact W|]. exists N. exact WS.
  - eapply near_weak; [|eapply near_trans; [|eapply near_trans; [apply near_close; exact E1|apply near_shift; exact NW]]].
    2: { instantiate (1 := 0). exists k. replace (toR s - (toR d + IZR k * 24)) with 0 by lra. rewrite Rabs_R0. lra. }
    rewrite u_val in *. lra.
Qed.

Lemma slt_round slt uth : fin slt = true -> fin uth = true -> 0 <= toR uth <= 24 -> Rabs (toR slt) <= bpow radix2 39 ->
  exists g y, returns (fun n => slt2glon_f n slt uth) g /\ returns (fun n => glon2slt_f n g uth) y /\ 0 <= toR y < 24 /\
    near_mod 24 (u * (3 * Rabs (toR slt) + 150)) (toR y) (toR slt).
Proof.
  intros F FU RU B. destruct (slt2glon_ok slt uth F FU RU B) as (g & G & FG & RG & NG).
  assert (AG : Rabs (toR g) <= 360) by (apply Rabs_le; lra).
  destruct (glon2slt_ok g uth FG FU RU) as (y & Y & FY & RY & NY); [rewrite b50; lra|].
  exists g, y. split; [exact G|]. split; [exact Y|]. split; [exact RY|].
  apply near_down in NG. replace (15 * (toR slt - toR uth) / 15) with (toR slt - toR uth) in NG by field.
  apply (near_shift _ _ _ _ (toR uth)) in NG. replace (toR slt - toR uth + toR uth) with (toR slt) in NG by ring.
  eapply near_weak; [|eapply near_trans; [exact NY|exact NG]]. rewrite u_val. pose proof (Rabs_pos (toR slt)). lra.
Qed.
Lemma glon_round glon uth : fin glon = true -> fin uth = true -> 0 <= toR uth <= 24 -> Rabs (toR glon) <= bpow radix2 50 ->
  exists s y, returns (fun n => glon2slt_f n glon uth) s /\ returns (fun n => slt2glon_f n s uth) y /\ -180 <= toR y < 360 /\
    near_mod 360 (u * (Rabs (toR glon) + 2614)) (toR y) (toR glon).
Proof.
  intros F FU RU B. destruct (glon2slt_ok glon uth F FU RU B) as (s & S & FS & RS & NS).
  assert (AS : Rabs (toR s) <= 24) by (apply Rabs_le; lra).
  destruct (slt2glon_ok s uth FS FU RU) as (y & Y & FY & RY & NY); [change (bpow radix2 39) with 549755813888; lra|].
  exists s, y. split; [exact S|]. split; [exact Y|]. split; [exact RY|].
  apply (near_shift _ _ _ _ (- toR uth)) in NS. replace (toR glon / 15 + toR uth + - toR uth) with (toR glon / 15) in NS by ring.
  apply near_up in NS. replace (15 * (toR glon / 15)) with (toR glon) in NS by field.
  eapply near_weak; [|eapply near_trans; [exact NY|exact NS]]. rewrite u_val. pose proof (Rabs_pos (toR glon)). lra.
Qed.
