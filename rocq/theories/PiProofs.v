(** A rational enclosure of pi, from Machin's formula in the standard library. *)
From Coq Require Import ZArith QArith Qpower Qreals Reals Machin Ranalysis_reg Ratan Lia Lra.
Open Scope R_scope.

Definition term_q (n : nat) : Q :=
  ((-1) ^ Z.of_nat n * (2 * ((1 # 3) ^ (2 * Z.of_nat n + 1) / inject_Z (2 * Z.of_nat n + 1)) + (1 # 7) ^ (2 * Z.of_nat n + 1) / inject_Z (2 * Z.of_nat n + 1)))%Q.
Fixpoint sum_q (n : nat) : Q := match n with O => Qred (term_q 0) | S m => Qred (sum_q m + term_q n) end.

Lemma Q2R_pow q n : Q2R (q ^ Z.of_nat n) = (Q2R q) ^ n.
Proof.
  induction n as [|n IH].
  - cbn. unfold Q2R. cbn. lra.
  - rewrite (Qeq_eqR (q ^ Z.of_nat (S n)) (q * q ^ Z.of_nat n)).
    + rewrite Q2R_mult, IH. reflexivity.
    + rewrite Nat2Z.inj_succ, <- Z.add_1_l. rewrite Qpower_plus' by lia. reflexivity.
Qed.
Lemma Q2R_Z z : Q2R (inject_Z z) = IZR z.
Proof. unfold Q2R, inject_Z. cbn. lra. Qed.

Lemma term_R n : tg_alt PI_2_3_7_tg n = Q2R (term_q n).
Proof.
  unfold tg_alt, PI_2_3_7_tg, Ratan_seq, term_q.
  replace (2 * Z.of_nat n + 1)%Z with (Z.of_nat (2 * n + 1)) by lia.
  assert (N : ~ (inject_Z (Z.of_nat (2 * n + 1)) == 0)%Q) by (unfold inject_Z, Qeq; cbn [Qnum Qden]; lia).
  rewrite Q2R_mult, Q2R_plus, Q2R_mult, !Q2R_div by exact N. rewrite !Q2R_pow, Q2R_Z, <- INR_IZR_INZ.
  assert (A : Q2R (-1) = -1) by (unfold Q2R; cbn; lra). assert (B : Q2R 2 = 2) by (unfold Q2R; cbn; lra).
  assert (C : Q2R (1 # 3) = / 3) by (unfold Q2R; cbn; lra). assert (D : Q2R (1 # 7) = / 7) by (unfold Q2R; cbn; lra).
  rewrite A, B, C, D. reflexivity.
Qed.
Lemma sum_R n : sum_f_R0 (tg_alt PI_2_3_7_tg) n = Q2R (sum_q n).
Proof.
  induction n as [|n IH]; cbn [sum_f_R0 sum_q].
  - rewrite (Qeq_eqR _ _ (Qred_correct _)). apply term_R.
  - rewrite (Qeq_eqR _ _ (Qred_correct _)), Q2R_plus, IH, term_R. reflexivity.
Qed.

(** Twice the distance from [np.pi] to pi is below 2^-51. *)
Lemma pi_bounds : 884279719003555 / 281474976710656 + / 8200000000000000 < PI < 884279719003555 / 281474976710656 + / 8100000000000000.
Proof.
  destruct (PI_2_3_7_ineq 10) as [L U]. rewrite sum_R in L. rewrite sum_R in U.
  assert (A : ((884279719003555 # 281474976710656) + (1 # 8200000000000000) < 4 * sum_q 21)%Q) by (vm_compute; reflexivity).
  assert (B : (4 * sum_q 20 < (884279719003555 # 281474976710656) + (1 # 8100000000000000))%Q) by (vm_compute; reflexivity).
  apply Qlt_Rlt in A. apply Qlt_Rlt in B. rewrite Q2R_plus, Q2R_mult in A, B.
  change (S (2 * 10)) with 21%nat in L. change (2 * 10)%nat with 20%nat in U.
  set (l := Q2R (sum_q 21)) in *. set (h := Q2R (sum_q 20)) in *.
  assert (F : Q2R 4 = 4) by (unfold Q2R; cbn; lra). rewrite F in A, B.
  assert (G : Q2R (884279719003555 # 281474976710656) = 884279719003555 / 281474976710656) by reflexivity. rewrite G in A, B.
  assert (H : Q2R (1 # 8200000000000000) = / 8200000000000000) by (unfold Q2R; cbn [Qnum Qden]; lra).
  assert (K : Q2R (1 # 8100000000000000) = / 8100000000000000) by (unfold Q2R; cbn [Qnum Qden]; lra).
  rewrite H in A. rewrite K in B. clearbody l h. lra.
Qed.
