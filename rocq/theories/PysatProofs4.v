(** Lemmas about PysatModel: labelled arrays. *)
From Coq Require Import String Ascii ZArith QArith List Bool Sorted Permutation Lia.
From Verif Require Import PyBase TimeModel FilesModel FilesProofs PysatModel PysatSpec PysatProofs3.
Import ListNotations.
Open Scope list_scope.
Open Scope nat_scope.

Lemma list_eqb_spec {A} (e : A -> A -> bool) (E : forall a b, e a b = true <-> a = b) : forall l l', list_eqb e l l' = true <-> l = l'.
Proof.
  induction l as [|a l IH]; intros [|b l']; cbn [list_eqb]; try (split; [reflexivity|reflexivity]); try (split; discriminate).
  rewrite andb_true_iff, E, IH. split; [intros [-> ->]; reflexivity|intros H; injection H; auto].
Qed.
Lemma strs_eqb a b : list_eqb str_eqb a b = true <-> a = b. Proof. apply list_eqb_spec. apply str_eqb_spec. Qed.
Lemma nats_eqb a b : list_eqb Nat.eqb a b = true <-> a = b. Proof. apply list_eqb_spec. apply Nat.eqb_eq. Qed.

(** ** Positions *)
Lemma in_product : forall ls ix, In ix (product ls) <-> Forall2 (fun i l => In i l) ix ls.
Proof.
  induction ls as [|l r IH]; intros ix; cbn [product].
  - split; [intros [<-|[]]; constructor|]. intros H. inversion H. left. reflexivity.
  - rewrite in_flat_map. split.
    + intros (i & I & J). apply in_map_iff in J. destruct J as (jx & <- & J). apply IH in J. constructor; assumption.
    + intros H. inversion H as [|i l' jx r' Hi Hr]. subst. exists i. split; [exact Hi|]. apply in_map. apply IH. exact Hr.
Qed.
Lemma sorted_app_earlier (l l' : list (list nat)) : StronglySorted earlier l -> StronglySorted earlier l' -> (forall a b, In a l -> In b l' -> earlier a b) -> StronglySorted earlier (l ++ l').
Proof.
  intros S S' H. induction S as [|a l S IH F]; [exact S'|]. cbn [app]. constructor; [apply IH; intros x y I J; apply H; [right; exact I|exact J]|].
  apply Forall_app. split; [exact F|]. apply Forall_forall. intros y J. apply H; [left; reflexivity|exact J].
Qed.
Lemma product_sorted : forall ls, Forall (StronglySorted lt) ls -> StronglySorted earlier (product ls).
Proof.
  induction ls as [|l r IH]; intros F; cbn [product]; [repeat constructor|].
  apply Forall_cons_iff in F. destruct F as [S F]. specialize (IH F). clear F.
  induction S as [|i l S IHl Fl]; cbn [flat_map]; [constructor|]. apply sorted_app_earlier; [|exact IHl|].
  - clear -IH. induction IH as [|a p S IH F]; cbn [map]; [constructor|]. constructor; [exact IH|]. apply Forall_forall. intros y J. apply in_map_iff in J. destruct J as (z & <- & J).
    rewrite Forall_forall in F. cbn. right. split; [reflexivity|exact (F z J)].
  - intros a b Ia Ib. apply in_map_iff in Ia. destruct Ia as (a' & <- & _). apply in_flat_map in Ib. destruct Ib as (j & Ij & Ib). apply in_map_iff in Ib. destruct Ib as (b' & <- & _).
    rewrite Forall_forall in Fl. cbn. left. exact (Fl j Ij).
Qed.
Lemma indices_product shape : indices shape = product (map (seq 0) shape).
Proof. induction shape as [|n r IH]; [reflexivity|]. cbn [indices map product]. rewrite IH. reflexivity. Qed.
Lemma sorted_seq n : forall m, StronglySorted lt (seq m n).
Proof. induction n as [|n IH]; intros m; [constructor|]. cbn [seq]. constructor; [apply IH|]. apply Forall_forall. intros k I. apply in_seq in I. lia. Qed.
Lemma in_indices shape ix : In ix (indices shape) <-> position shape ix.
Proof.
  rewrite indices_product, in_product. unfold position. revert ix. induction shape as [|n r IH]; intros ix; cbn [map].
  - split; intros H; inversion H; constructor.
  - split; intros H; inversion H; subst; (constructor; [|apply IH; assumption]).
    + match goal with I : In _ _ |- _ => apply in_seq in I end. lia.
    + apply in_seq. lia.
Qed.
Lemma indices_sorted shape : StronglySorted earlier (indices shape).
Proof. rewrite indices_product. apply product_sorted. induction shape; constructor; [apply sorted_seq|exact IHshape]. Qed.
Lemma filter_sorted {A} (R : A -> A -> Prop) p l : StronglySorted R l -> StronglySorted R (filter p l).
Proof.
  induction 1 as [|a l S IH F]; [constructor|]. cbn [filter]. destruct (p a); [|exact IH]. constructor; [exact IH|].
  apply Forall_forall. intros x I. apply filter_In in I. rewrite Forall_forall in F. apply F. apply I.
Qed.
Lemma select_indices shape sel : selection shape sel (filter sel (indices shape)).
Proof. split; [|apply filter_sorted, indices_sorted]. intros ix. rewrite filter_In, in_indices. reflexivity. Qed.
Lemma position_length shape ix : position shape ix -> length ix = length shape.
Proof. unfold position. induction 1; [reflexivity|]. cbn [length]. congruence. Qed.
Lemma position_nth shape ix k : position shape ix -> k < length shape -> nth k ix 0 < nth k shape 0.
Proof. intros P. revert k. induction P as [|i n ix shape H P IH]; intros k L; [cbn in L; lia|]. destruct k as [|k]; [exact H|]. cbn [nth]. apply IH. cbn [length] in L. lia. Qed.

(** ** The same dimensions *)
Lemma in_kept mask k n i : In i (kept mask k n) <-> i < n /\ exists ix, position (nd_shape mask) ix /\ nth k ix 0 = i /\ nd_at mask ix = true.
Proof.
  unfold kept. rewrite filter_In, in_seq, existsb_exists. split.
  - intros [L (ix & I & E)]. apply andb_true_iff in E. destruct E as [E M]. apply Nat.eqb_eq in E. split; [lia|]. exists ix. split; [apply in_indices; exact I|]. split; assumption.
  - intros [L (ix & P & E & M)]. split; [lia|]. exists ix. split; [apply in_indices; exact P|]. apply andb_true_iff. split; [apply Nat.eqb_eq; exact E|exact M].
Qed.
Lemma kept_from_nth mask : forall shape k ix, Forall2 (fun i l => In i l) ix (kept_from mask k shape) <->
  length ix = length shape /\ forall j, j < length shape -> In (nth j ix 0) (kept mask (k + j) (nth j shape 0)).
Proof.
  induction shape as [|n r IH]; intros k ix; cbn [kept_from].
  - split; [intros H; inversion H; split; [reflexivity|]; intros j L; cbn in L; lia|]. intros [L _]. destruct ix; [constructor|discriminate].
  - split.
    + intros H. inversion H as [|i l jx r' Hi Hr]. subst. apply IH in Hr. destruct Hr as [Lr Hr]. split; [cbn [length]; congruence|].
      intros [|j] L; cbn [nth]; [rewrite Nat.add_0_r; exact Hi|]. rewrite <- Nat.add_succ_comm. apply Hr. cbn [length] in L. lia.
    + intros [L H]. destruct ix as [|i ix]; [discriminate|]. constructor.
      * specialize (H 0). cbn [nth] in H. rewrite Nat.add_0_r in H. apply H. cbn [length]. lia.
      * apply IH. split; [cbn [length] in L; lia|]. intros j Lj. specialize (H (S j)). cbn [nth] in H. rewrite <- Nat.add_succ_comm in H. apply H. cbn [length]. lia.
Qed.
Lemma kept_sorted mask : forall shape k, Forall (StronglySorted lt) (kept_from mask k shape).
Proof. induction shape as [|n r IH]; intros k; cbn [kept_from]; constructor; [apply filter_sorted, sorted_seq|apply IH]. Qed.
Lemma position_intro shape ix : length ix = length shape -> (forall k, k < length shape -> nth k ix 0 < nth k shape 0) -> position shape ix.
Proof.
  unfold position. revert ix. induction shape as [|n r IH]; intros [|i ix] L H; try discriminate; constructor.
  - apply (H 0). cbn [length]. lia.
  - apply IH; [cbn [length] in L; lia|]. intros k Lk. apply (H (S k)). cbn [length]. lia.
Qed.
Lemma box_selection (mask : nd bool) : box (nd_shape mask) (nd_at mask) -> selection (nd_shape mask) (nd_at mask) (product (kept_from mask 0 (nd_shape mask))).
Proof.
  intros [chosen B]. split; [|apply product_sorted, kept_sorted]. intros ix. rewrite in_product, kept_from_nth. split.
  - intros [L H]. assert (P : position (nd_shape mask) ix).
    { apply position_intro; [exact L|]. intros k Lk. specialize (H k Lk). apply in_kept in H. apply H. }
    split; [exact P|]. apply (B ix P). intros k Lk. specialize (H k Lk). apply in_kept in H. destruct H as [_ (jx & Pj & E & M)].
    cbn [Nat.add] in E. rewrite <- E. apply (B jx Pj); assumption.
  - intros [P M]. split; [apply position_length; exact P|]. intros j Lj. apply in_kept. split; [apply position_nth; assumption|]. exists ix. split; [exact P|]. split; [reflexivity|exact M].
Qed.
Lemma flatten_same {V} (nan : V) data mask : nd_dims mask = nd_dims data -> nd_shape mask = nd_shape data -> box (nd_shape mask) (nd_at mask) ->
  exists l, selection (nd_shape mask) (nd_at mask) l /\ flatten nan data mask = Ok (map (nd_at data) l).
Proof.
  intros D S B. exists (product (kept_from mask 0 (nd_shape mask))). split; [apply box_selection; exact B|].
  unfold flatten. rewrite (proj2 (strs_eqb _ _) D), (proj2 (nats_eqb _ _) S). f_equal. apply map_ext_in. intros ix I.
  apply (box_selection mask B) in I. destruct I as [_ ->]. reflexivity.
Qed.

(** ** Padding *)
Lemma nindex_in d l : In d l -> nth_error l (nindex d l) = Some d.
Proof.
  unfold nindex. induction l as [|a l IH]; intros I; [destruct I|]. cbn [index]. destruct (str_eqb d a) eqn:E; [apply str_eqb_spec in E; subst; reflexivity|].
  destruct I as [->|I]; [rewrite str_eqb_refl in E; discriminate|]. specialize (IH I). destruct (index d l) as [n|x] eqn:F; cbn [bind]; [exact IH|].
  exfalso. clear -I F. revert x F. induction l as [|b l IH]; intros x F; [destruct I|]. cbn [index] in F. destruct (str_eqb d b) eqn:E; [discriminate|].
  destruct I as [->|I]; [rewrite str_eqb_refl in E; discriminate|]. destruct (index d l) as [n|y] eqn:G; [discriminate|]. exact (IH I y eq_refl).
Qed.
Lemma nindex_nth d l b : NoDup l -> nth_error l b = Some d -> nindex d l = b.
Proof.
  intros N E. assert (I : In d l) by (eapply nth_error_In; exact E). pose proof (nindex_in d l I) as F. rewrite NoDup_nth_error in N. apply N; [apply nth_error_Some; congruence|congruence].
Qed.
Lemma fits_firstn : forall k shape, fits (firstn k shape) shape = true.
Proof. induction k as [|k IH]; intros [|s r]; cbn [firstn fits]; try reflexivity. rewrite Nat.eqb_refl. cbn [orb andb]. apply IH. Qed.
Lemma squash_firstn : forall k shape ix r, position shape ix -> squash (firstn k shape) (ix ++ r) = firstn k ix.
Proof.
  induction k as [|k IH]; intros shape ix r P; [reflexivity|]. inversion P as [|i n ix' shape' H P']; subst; [reflexivity|].
  cbn [firstn app squash hd tl]. rewrite IH by exact P'. destruct (n =? 1) eqn:E; [|reflexivity]. apply Nat.eqb_eq in E. f_equal. lia.
Qed.
Lemma nth_error_firstn {A} (l : list A) : forall k i, i < k -> nth_error (firstn k l) i = nth_error l i.
Proof. induction l as [|a l IH]; intros [|k] [|i] L; try lia; try reflexivity. cbn [firstn nth_error]. apply IH. lia. Qed.
Lemma nth_firstn {A} (l : list A) d : forall k i, i < k -> nth i (firstn k l) d = nth i l d.
Proof. induction l as [|a l IH]; intros [|k] [|i] L; try lia; try reflexivity. cbn [firstn nth]. apply IH. lia. Qed.
Lemma filter_none {A} (p : A -> bool) l : (forall x, In x l -> p x = false) -> filter p l = [].
Proof. induction l as [|a l IH]; intros H; [reflexivity|]. cbn [filter]. rewrite (H a (or_introl eq_refl)). apply IH. intros x I. apply H. right. exact I. Qed.
Lemma filter_all {A} (p : A -> bool) l : (forall x, In x l -> p x = true) -> filter p l = l.
Proof. induction l as [|a l IH]; intros H; [reflexivity|]. cbn [filter]. rewrite (H a (or_introl eq_refl)). f_equal. apply IH. intros x I. apply H. right. exact I. Qed.
Lemma flat_map_single {A B} (f : A -> list B) (g : A -> B) l : (forall x, In x l -> f x = [g x]) -> flat_map f l = map g l.
Proof. induction l as [|a l IH]; intros H; [reflexivity|]. cbn [flat_map map]. rewrite (H a (or_introl eq_refl)). cbn [app]. f_equal. apply IH. intros x I. apply H. right. exact I. Qed.

Section Pad.
Context {V : Type} (nan : V) (data : nd V) (mask : nd bool) (k : nat).
Hypothesis NM : NoDup (nd_dims mask).
Hypothesis LM : length (nd_shape mask) = length (nd_dims mask).
Hypothesis LD : length (nd_shape data) = length (nd_dims data).
Hypothesis KL : k <= length (nd_dims mask).
Hypothesis PD : Permutation (nd_dims data) (firstn k (nd_dims mask)).
Hypothesis SS : same_sizes (nd_dims mask) (nd_shape mask) (nd_dims data) (nd_shape data).
Lemma pad_nodup : NoDup (nd_dims data).
Proof.
  eapply Permutation_NoDup; [apply Permutation_sym; exact PD|]. rewrite <- (firstn_skipn k (nd_dims mask)) in NM. clear -NM. induction (firstn k (nd_dims mask)) as [|a l IH]; [constructor|].
  cbn [app] in NM. apply NoDup_cons_iff in NM. destruct NM as [NI N]. constructor; [intros I; apply NI, in_or_app; left; exact I|exact (IH N)].
Qed.
Lemma pad_dims : filter (fun d => member d (nd_dims data)) (nd_dims mask) = firstn k (nd_dims mask).
Proof.
  rewrite <- (firstn_skipn k (nd_dims mask)) at 1. rewrite filter_app, filter_all, filter_none; [apply app_nil_r| |].
  - intros d I. destruct (member d (nd_dims data)) eqn:M; [|reflexivity]. apply member_spec in M. apply (Permutation_in _ PD) in M.
    rewrite <- (firstn_skipn k (nd_dims mask)) in NM. exfalso. clear -NM I M. induction (firstn k (nd_dims mask)) as [|a l IH]; [destruct M|]. cbn [app] in NM. apply NoDup_cons_iff in NM. destruct NM as [NI N].
    destruct M as [->|M]; [apply NI, in_or_app; right; exact I|exact (IH N M)].
  - intros d I. apply member_spec. apply (Permutation_in _ (Permutation_sym PD)). exact I.
Qed.
Lemma pad_rest : filter (fun d => negb (member d (firstn k (nd_dims mask)))) (nd_dims data) = [].
Proof. apply filter_none. intros d I. apply negb_false_iff, member_spec, (Permutation_in _ PD), I. Qed.
Lemma pad_shape : map (fun d => nth (nindex d (nd_dims data)) (nd_shape data) 0) (firstn k (nd_dims mask)) = firstn k (nd_shape mask).
Proof.
  apply (nth_ext _ _ 0 0); [rewrite map_length, !firstn_length; lia|]. intros b L. rewrite map_length, firstn_length in L.
  destruct (nth_error (nd_dims mask) b) as [d|] eqn:E; [|apply nth_error_None in E; lia].
  assert (E' : nth_error (firstn k (nd_dims mask)) b = Some d) by (rewrite nth_error_firstn by lia; exact E).
  rewrite nth_firstn by lia. erewrite nth_error_nth; [|apply map_nth_error; exact E'].
  apply (SS _ b d); [|exact E]. apply nindex_in. apply (Permutation_in _ (Permutation_sym PD)). eapply nth_error_In. exact E'.
Qed.
Lemma pad_place ix : position (nd_shape mask) ix -> same_place (nd_dims mask) ix (nd_dims data) (map (fun d => nth (nindex d (firstn k (nd_dims mask))) (firstn k ix) 0) (nd_dims data)).
Proof.
  intros P. split; [apply map_length|]. intros a b d A B. erewrite nth_error_nth; [|apply map_nth_error; exact A].
  assert (I : In d (firstn k (nd_dims mask))) by (apply (Permutation_in _ PD); eapply nth_error_In; exact A).
  pose proof (nindex_in d _ I) as E. assert (L : nindex d (firstn k (nd_dims mask)) < k).
  { assert (X : nindex d (firstn k (nd_dims mask)) < length (firstn k (nd_dims mask))) by (apply nth_error_Some; congruence). rewrite firstn_length in X. lia. }
  rewrite nth_error_firstn in E by exact L. rewrite nth_firstn by exact L. f_equal. rewrite NoDup_nth_error in NM. apply NM; [apply nth_error_Some; intros X; assert (Some d = None) by (etransitivity; [symmetry; exact E|exact X]); discriminate|etransitivity; [exact E|symmetry; exact B]].
Qed.
Lemma flatten_pad : nd_dims mask <> nd_dims data -> exists l vals, selection (nd_shape mask) (nd_at mask) l /\ flatten nan data mask = Ok vals /\
  Forall2 (fun ix v => exists jx, same_place (nd_dims mask) ix (nd_dims data) jx /\ v = nd_at data jx) l vals.
Proof.
  intros NE. unfold flatten. destruct (list_eqb str_eqb (nd_dims mask) (nd_dims data)) eqn:E; [apply strs_eqb in E; contradiction|].
  rewrite pad_dims, pad_rest, app_nil_r, pad_shape.
  set (g := fun ix => nd_at data (map (fun d => nth (nindex d (firstn k (nd_dims mask))) (firstn k ix) 0) (nd_dims data))).
  exists (filter (nd_at mask) (indices (nd_shape mask))), (map g (filter (nd_at mask) (indices (nd_shape mask)))).
  split; [apply select_indices|]. split.
  - assert (LF : length (firstn k (nd_dims mask)) = k) by (rewrite firstn_length; lia). rewrite LF.
    destruct (k <? length (nd_dims mask)) eqn:K.
    + rewrite fits_firstn. cbn [bind]. rewrite firstn_all, skipn_all. rewrite (proj2 (nats_eqb _ _) eq_refl). f_equal. apply flat_map_single.
      intros ix I. apply filter_In in I. destruct I as [I _]. apply in_indices in I. cbn [indices map]. rewrite squash_firstn by exact I. reflexivity.
    + apply Nat.ltb_ge in K. assert (k = length (nd_dims mask)) by lia. cbn [bind].
      rewrite (firstn_all2 (nd_shape mask)) by lia. rewrite firstn_all, skipn_all. rewrite (proj2 (nats_eqb _ _) eq_refl). f_equal. apply flat_map_single.
      intros ix I. apply filter_In in I. destruct I as [I _]. apply in_indices in I. apply position_length in I. cbn [indices map]. unfold g. rewrite app_nil_r, (firstn_all2 ix) by lia. reflexivity.
  - assert (A : forall ix, In ix (filter (nd_at mask) (indices (nd_shape mask))) -> position (nd_shape mask) ix) by (intros ix I; apply filter_In in I; apply in_indices; apply I).
    induction (filter (nd_at mask) (indices (nd_shape mask))) as [|ix l IH]; cbn [map]; constructor.
    + eexists. split; [apply pad_place; apply A; left; reflexivity|reflexivity].
    + apply IH. intros jx I. apply A. right. exact I.
Qed.
End Pad.
