(** Lemmas about PcoordModel: places in row-major order. *)
From Coq Require Import String Ascii ZArith QArith List Bool Lia.
From Verif Require Import PyBase TimeModel FilesModel SmagModel PysatModel PysatSpec PysatProofs PropertiesPysat2 PcoordModel PcoordSpec.
Import ListNotations.
Open Scope list_scope.

Lemma position_length shape ix : position shape ix -> length ix = length shape.
Proof. induction 1; cbn; congruence. Qed.
Lemma row_offset : forall shape ix acc, length ix = length shape -> row_major acc shape ix = (acc * size shape + offset shape ix)%nat.
Proof.
  induction shape as [|n r IH]; intros [|i t] acc L; try discriminate L; [cbn; lia|]. cbn [row_major offset]. rewrite IH by (cbn in L; lia).
  unfold size. cbn [fold_right]. fold (size r). nia.
Qed.
Lemma value_at {V} shape (vals : list V) ix : position shape ix -> value shape vals ix = at_place shape vals ix.
Proof. intros P. unfold value, at_place. rewrite row_offset by (apply position_length; exact P). reflexivity. Qed.
Lemma offset_bound shape ix : position shape ix -> (offset shape ix < size shape)%nat.
Proof. induction 1 as [|i n ix s L P IH]; [cbn; lia|]. cbn [offset]. unfold size. cbn [fold_right]. fold (size s). nia. Qed.
Lemma offset_app a b i j : length i = length a -> offset (a ++ b) (i ++ j) = (offset a i * size b + offset b j)%nat.
Proof.
  revert i. induction a as [|n a IH]; intros [|x i] L; try discriminate L; [reflexivity|]. cbn [app offset]. rewrite IH by (cbn in L; lia). rewrite size_app. nia.
Qed.
Lemma position_app a b ix : position (a ++ b) ix <-> exists i j, ix = i ++ j /\ position a i /\ position b j.
Proof.
  split.
  - revert ix. induction a as [|n a IH]; intros ix P; [exists [], ix; split; [reflexivity|split; [constructor|exact P]]|].
    inversion P as [|x m t s L P' E1 E2]; subst. destruct (IH _ P') as (i & j & -> & A & B). exists (x :: i), j. split; [reflexivity|]. split; [constructor; assumption|exact B].
  - intros (i & j & -> & A & B). unfold position in *. apply Forall2_app; assumption.
Qed.
Lemma spread_map {V} k (l : list V) : flat_map (fun v => repeat v k) l = concat (map (fun v => map (fun _ => v) (seq 0 k)) l).
Proof.
  rewrite flat_map_concat_map. f_equal. apply map_ext. intros v. generalize 0%nat. induction k as [|k IH]; intros n; [reflexivity|]. cbn. f_equal. apply IH.
Qed.
Lemma spread_nth {V} k (l : list V) i j : (i < length l)%nat -> (j < k)%nat -> nth_error (flat_map (fun v => repeat v k) l) (i * k + j) = nth_error l i.
Proof. intros A B. rewrite spread_map. pose proof (nth_each_block (seq 0 k) l i j) as H. rewrite seq_length in H. apply H; assumption. Qed.
Lemma spread_length {V} k (l : list V) : length (flat_map (fun v => repeat v k) l) = (length l * k)%nat.
Proof. rewrite spread_map. rewrite (concat_length _ k); [reflexivity|]. intros t. rewrite map_length. apply seq_length. Qed.

(** Places with the same coordinates. *)
Lemma nth_error_nth' {A} (l : list A) i d a : nth_error l i = Some a -> nth i l d = a.
Proof. intros E. apply nth_error_nth. exact E. Qed.
Lemma same_place_refl names ix : NoDup names -> length ix = length names -> same_place names ix names ix.
Proof.
  intros N L. split; [exact L|]. intros a b d A B. f_equal. apply (proj1 (NoDup_nth_error names) N); [apply nth_error_Some; congruence|congruence].
Qed.
(** The leading coordinates, and those after them. *)
Lemma same_place_left n1 n2 i j : NoDup (n1 ++ n2) -> length i = length n1 -> same_place (n1 ++ n2) (i ++ j) n1 i.
Proof.
  intros N L. split; [exact L|]. intros a b d A B.
  assert (LA : (a < length n1)%nat) by (apply nth_error_Some; congruence).
  assert (E : a = b). { apply (proj1 (NoDup_nth_error (n1 ++ n2)) N); [rewrite app_length; lia|]. rewrite nth_error_app1 by exact LA. congruence. }
  subst b. rewrite app_nth1 by lia. reflexivity.
Qed.
Lemma same_place_right n1 n2 i j : NoDup (n1 ++ n2) -> length i = length n1 -> length j = length n2 -> same_place (n1 ++ n2) (i ++ j) n2 j.
Proof.
  intros N L L2. split; [exact L2|]. intros a b d A B.
  assert (LA : (a < length n2)%nat) by (apply nth_error_Some; congruence).
  assert (E : (length n1 + a = b)%nat).
  { apply (proj1 (NoDup_nth_error (n1 ++ n2)) N); [rewrite app_length; lia|]. rewrite nth_error_app2 by lia. replace (length n1 + a - length n1)%nat with a by lia. congruence. }
  subst b. rewrite app_nth2 by lia. f_equal. lia.
Qed.
(** Seen through an array in between. *)
Lemma same_place_trans n1 i1 n2 i2 n3 i3 : incl n3 n2 -> same_place n1 i1 n2 i2 -> same_place n2 i2 n3 i3 -> same_place n1 i1 n3 i3.
Proof.
  intros I [L1 S1] [L2 S2]. split; [exact L2|]. intros a b d A B. assert (J : In d n2) by (apply I; eapply nth_error_In; exact A).
  apply In_nth_error in J. destruct J as [k K]. rewrite (S2 _ _ _ A K). apply (S1 _ _ _ K B).
Qed.

(** An array has its own values. *)
Lemma own_refl {V} names shape (vals : list V) : NoDup names -> length names = length shape -> length vals = size shape -> own_values names shape vals names shape vals.
Proof.
  intros N L S. split; [apply incl_refl|]. split; [exact L|]. intros ix P. assert (H : (offset shape ix < length vals)%nat) by (rewrite S; apply offset_bound; exact P).
  apply nth_error_Some in H. destruct (nth_error vals (offset shape ix)) as [x|] eqn:E; [|congruence]. exists ix, x. split; [exact P|].
  split; [apply same_place_refl; [exact N|rewrite (position_length _ _ P); congruence]|]. rewrite value_at by exact P. split; exact E.
Qed.
(** Values repeated along new coordinates, after the others (395-410) or before them. *)
Lemma own_after {V} names shape (vals : list V) vnames vshape vvals new nshape : NoDup (names ++ new) -> length new = length nshape -> length vals = size shape ->
  own_values names shape vals vnames vshape vvals ->
  own_values (names ++ new) (shape ++ nshape) (flat_map (fun v => repeat v (size nshape)) vals) vnames vshape vvals.
Proof.
  intros N LN LV (I & L & H). split; [intros x X; apply in_or_app; left; apply I; exact X|]. split; [rewrite !app_length; congruence|].
  intros ix P. pose proof P as P'. apply position_app in P'. destruct P' as (i & j & -> & A & B). destruct (H i A) as (jx & x & J1 & J2 & J3 & J4). exists jx, x.
  split; [exact J1|]. split; [|split; [exact J3|]].
  - apply (same_place_trans _ _ names i); [exact I|apply same_place_left; [exact N|rewrite (position_length _ _ A); congruence]|exact J2].
  - rewrite value_at in * by assumption. unfold at_place in *. rewrite offset_app by (rewrite (position_length _ _ A); reflexivity).
    rewrite spread_nth; [exact J4|rewrite LV; apply offset_bound; exact A|apply offset_bound; exact B].
Qed.
Lemma own_before {V} names shape (vals : list V) vnames vshape vvals {W} (l : list W) new nshape : NoDup (new ++ names) -> length new = length nshape -> length l = size nshape -> length vals = size shape ->
  own_values names shape vals vnames vshape vvals ->
  own_values (new ++ names) (nshape ++ shape) (concat (map (fun _ => vals) l)) vnames vshape vvals.
Proof.
  intros N LN LW LV (I & L & H). split; [intros x X; apply in_or_app; right; apply I; exact X|]. split; [rewrite !app_length; congruence|].
  intros ix P. pose proof P as P'. apply position_app in P'. destruct P' as (j & i & -> & B & A). destruct (H i A) as (jx & x & J1 & J2 & J3 & J4). exists jx, x.
  split; [exact J1|]. split; [|split; [exact J3|]].
  - apply (same_place_trans _ _ names i); [exact I|apply same_place_right; [exact N|rewrite (position_length _ _ B); congruence|rewrite (position_length _ _ A); congruence]|exact J2].
  - rewrite value_at in * by assumption. unfold at_place in *. rewrite offset_app by (rewrite (position_length _ _ B); reflexivity). rewrite <- LV.
    rewrite nth_repeat_block; [exact J4|rewrite LW; apply offset_bound; exact B|rewrite LV; apply offset_bound; exact A].
Qed.
Lemma each_spread {V W} (l : list W) (ts : list V) : concat (map (fun t => map (fun _ => t) l) ts) = flat_map (fun v => repeat v (length l)) ts.
Proof. rewrite flat_map_concat_map. f_equal. apply map_ext. intros v. induction l as [|x l IH]; [reflexivity|]. cbn. f_equal. exact IH. Qed.
(** One value everywhere. *)
Lemma own_single {V} names shape (v : V) : length names = length shape -> own_values names shape (repeat v (size shape)) [] [] [v].
Proof.
  intros L. split; [intros x []|]. split; [exact L|]. intros ix P. exists [], v. split; [constructor|]. split; [split; [reflexivity|intros [|a] b d A; discriminate A]|]. split; [reflexivity|].
  rewrite value_at by exact P. unfold at_place. apply nth_error_repeat. apply offset_bound. exact P.
Qed.
