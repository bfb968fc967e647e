(** Splitting lines into words. *)
From Coq Require Import String Ascii ZArith List Bool Lia.
From Verif Require Import PyBase PyString TimeModel TimeSpec TimeProofs TimeProofs3 FilesModel TextSpec.
Import ListNotations.
Open Scope list_scope.
Open Scope Z_scope.

Lemma words_blank w s : blank w -> words [] (w ++ s) = words [] s.
Proof. induction 1 as [|c w C W IH]; [reflexivity|]. cbn [app words]. rewrite C. exact IH. Qed.
Lemma words_word t acc s : Forall (fun c => isspace c = false) t -> words acc (t ++ s) = words (rev t ++ acc) s.
Proof.
  intros F. revert acc. induction F as [|c t C T IH]; intros acc; [reflexivity|]. cbn [app words]. rewrite C, IH. cbn [rev]. rewrite <- app_assoc. reflexivity.
Qed.
Lemma words_cut t s : word t -> (s = [] \/ exists c r, s = c :: r /\ isspace c = true) -> words [] (t ++ s) = t :: words [] s.
Proof.
  intros [N T] S. rewrite words_word by exact T. rewrite app_nil_r.
  assert (R : rev t <> []) by (intros E; apply (f_equal (@rev ascii)) in E; rewrite rev_involutive in E; exact (N E)).
  destruct (rev t) as [|a l] eqn:E; [contradiction|]. assert (TT : t = rev (a :: l)) by (rewrite <- E, rev_involutive; reflexivity).
  destruct S as [->|(c & r & -> & C)]; cbn [words]; [|rewrite C]; rewrite TT; reflexivity.
Qed.
Lemma words_spaced ts s : spaced ts s -> words [] s = ts.
Proof.
  induction 1 as [w W|w t v W T V|w t c ts s W T C S IH].
  - rewrite <- (app_nil_r w), words_blank by exact W. reflexivity.
  - rewrite words_blank by exact W. rewrite words_cut; [|exact T|].
    + f_equal. rewrite <- (app_nil_r v), words_blank by exact V. reflexivity.
    + destruct V as [|c v C V]; [auto|right; eauto].
  - rewrite words_blank by exact W. rewrite words_cut; [|exact T|right; eauto]. f_equal. cbn [words]. rewrite C. exact IH.
Qed.
Lemma py_int_integer z s : integer z s -> py_int s = Ok z.
Proof.
  intros [W|(t & -> & W)]; apply written_spec in W.
  - destruct W as (_ & N & D & V). rewrite py_int_digits by assumption. f_equal. lia.
  - destruct W as (_ & N & D & V). unfold py_int. change (Ascii.eqb "-" "-") with true. cbv iota. unfold all_digits. rewrite D.
    assert (L : zlen t =? 0 = false) by (apply Z.eqb_neq; unfold zlen; destruct t; [contradiction|cbn [length]; lia]).
    rewrite L. cbn [negb andb]. f_equal. lia.
Qed.

(** Words with single spaces between them, for examples. *)
Fixpoint sjoin (ws : list str) : str :=
  match ws with [] => [] | [t] => t | t :: r => t ++ " "%char :: sjoin r end.
Lemma joined ws : Forall word ws -> spaced ws (sjoin ws).
Proof.
  induction 1 as [|t ws W F IH]; [constructor; constructor|]. destruct ws as [|t' ws].
  - cbn [sjoin]. rewrite <- (app_nil_r t) at 2. apply (sp_last [] t []); [constructor|exact W|constructor].
  - change (sjoin (t :: t' :: ws)) with (t ++ " "%char :: sjoin (t' :: ws)). apply (sp_word [] t); [constructor|exact W|reflexivity|exact IH].
Qed.
Lemma written_dval (s : str) : s <> [] -> forallb isdigit s = true -> written (dval s) s.
Proof.
  induction s as [|c s IH] using rev_ind; [intros H; contradiction|]. intros _ D. rewrite forallb_app in D. apply andb_true_iff in D. destruct D as [D C].
  cbn [forallb] in C. rewrite andb_true_r in C. unfold isdigit, TimeModel.between in C. apply andb_true_iff in C. rewrite !Z.leb_le in C.
  assert (G : is_digit_of c (code c - 48)) by (split; lia). destruct s as [|a s].
  - unfold dval. cbn [app fold_left]. replace (0 * 10 + (code c - 48)) with (code c - 48) by lia. constructor. exact G.
  - unfold dval. rewrite fold_left_app. cbn [fold_left]. fold (dval (a :: s)). rewrite (Z.mul_comm _ 10). constructor; [apply IH; [discriminate|exact D]|exact G].
Qed.
(** A test for words and integers. *)
Definition wordb (s : str) : bool := match s with [] => false | _ => forallb (fun c => negb (isspace c)) s end.
Lemma wordb_word s : wordb s = true -> word s.
Proof.
  destruct s as [|a s]; [discriminate|]. intros H. cbn [wordb] in H. split; [discriminate|]. rewrite forallb_forall in H. apply Forall_forall. intros c I. apply H in I. destruct (isspace c); [discriminate|reflexivity].
Qed.
Definition intb (z : Z) (s : str) : bool :=
  match s with
  | [] => false
  | c :: t => if Ascii.eqb c "-" then negb (match t with [] => true | _ => false end) && forallb isdigit t && (dval t =? - z) else forallb isdigit s && (dval s =? z)
  end.
Lemma intb_integer z s : intb z s = true -> integer z s.
Proof.
  destruct s as [|c t]; [discriminate|]. cbn [intb]. destruct (Ascii.eqb_spec c "-") as [->|N]; intros H; apply andb_true_iff in H; destruct H as [H E]; apply Z.eqb_eq in E.
  - apply andb_true_iff in H. destruct H as [H D]. right. exists t. split; [reflexivity|]. rewrite <- E. apply written_dval; [destruct t; [discriminate H|discriminate]|exact D].
  - left. rewrite <- E. apply written_dval; [discriminate|exact H].
Qed.
Lemma joinb ws : forallb wordb ws = true -> spaced ws (sjoin ws).
Proof. intros H. apply joined. apply Forall_forall. rewrite forallb_forall in H. intros t I. apply wordb_word, H, I. Qed.
