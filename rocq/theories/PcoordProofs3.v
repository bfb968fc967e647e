(** Lemmas about PcoordModel: the loop over the times. *)
From Coq Require Import String Ascii ZArith QArith List Bool Lia Sorted.
From Verif Require Import PyBase TimeModel FilesModel SmagModel CycleModel CycleSpec CycleProofs DriverModel DriverSpec DriverProofs PropertiesCycle PysatModel PysatSpec PysatProofs PysatProofs2 PysatProofs4 PcoordModel PcoordSpec PcoordProofs.
Import ListNotations.
Open Scope list_scope.
Open Scope Z_scope.

Section Fill.
Context {V W : Type} (normal : Z -> V -> V -> V -> W) (l : located V) (mask : list nat -> bool) (uind : list Z).
Definition from_record (o : option (option Z)) (ix : list nat) : option W := match o with Some (Some r) => one_place normal l r ix | _ => None end.
Lemma fill_all_unmasked ix : mask ix = false -> forall pairs out, fill_all normal l mask uind pairs out ix = out ix.
Proof.
  intros M. induction pairs as [|[i r] t IH]; intros out; [reflexivity|]. cbn [fill_all]. rewrite IH, M. destruct (py_get uind i); reflexivity.
Qed.
Lemma fill_all_fill ix : mask ix = true -> forall pairs out rs, (forall u, In u uind -> 0 <= u < zlen rs) -> (hd 0%nat ix < length rs)%nat ->
  (forall i r, In (i, r) pairs -> 0 <= i < zlen uind) -> out ix = from_record (nth_error rs (hd 0%nat ix)) ix ->
  fill_all normal l mask uind pairs out ix = from_record (nth_error (fill (fun r _ => r) uind pairs rs) (hd 0%nat ix)) ix.
Proof.
  intros M. induction pairs as [|[i r] t IH]; intros out rs U L R E; [exact E|]. cbn [fill_all fill].
  destruct (py_get_some uind i) as (u & G & Nu); [apply (R i r); left; reflexivity|]. rewrite G.
  assert (Ub : 0 <= u < zlen rs) by (apply U; eapply nth_error_In; exact Nu). unfold zlen in Ub.
  apply IH.
  - intros v I. unfold zlen. rewrite put_at_length. apply U. exact I.
  - rewrite put_at_length. exact L.
  - intros i' r' I. apply (R i' r'). right. exact I.
  - rewrite put_at_spec by lia. rewrite M. cbn [andb].
    destruct (Z.eqb_spec (Z.of_nat (hd 0%nat ix)) u) as [<-|N].
    + rewrite Nat2Z.id, Nat.eqb_refl. reflexivity.
    + rewrite (proj2 (Nat.eqb_neq _ _)) by lia. exact E.
Qed.
End Fill.

Section Loop.
Context {V W : Type} (normal : Z -> V -> V -> V -> W).
Variables (b : boundary) (times : list Z) (mask : list nat -> bool) (max_sdiff : Z) (mn mx : option num) (ks : list crit).
Hypothesis WB : wf_boundary b.
Hypothesis WC : wf_crits b ks.
Hypothesis SB : strictly_time_sorted (b_dtime b).
Hypothesis ST : time_sorted times.
Hypothesis T0 : 0 <= max_sdiff.
Hypothesis RI : -1 <= b_rec_ind b < b_records b.
Let usable := candidate (good_record b mn mx ks) (b_records b) (b_rec_ind b).
Let tol := max_sdiff * 1000000.
(** The times that have a sample (335-338, 428). *)
Definition sampled (shape : list nat) : list bool := map (fun i => existsb (fun ix => (hd 0 ix =? i)%nat && mask ix) (indices shape)) (seq 0 (length times)).
Lemma sampled_length shape : length (sampled shape) = length times.
Proof. unfold sampled. rewrite map_length. apply seq_length. Qed.
Lemma sampled_nth shape s : (s < length times)%nat -> nth_error (sampled shape) s = Some true <-> exists ix, position shape ix /\ hd 0%nat ix = s /\ mask ix = true.
Proof.
  intros L. unfold sampled. rewrite nth_error_map. assert (E : nth_error (seq 0 (length times)) s = Some s).
  { rewrite (List.nth_error_nth' _ 0%nat) by (rewrite seq_length; exact L). rewrite seq_nth by exact L. reflexivity. }
  rewrite E. cbn [option_map]. split.
  - intros H. injection H as H. apply existsb_exists in H. destruct H as (ix & I & H). apply andb_true_iff in H. destruct H as [A B]. exists ix. split; [apply in_indices; exact I|]. split; [apply Nat.eqb_eq; exact A|exact B].
  - intros (ix & P & A & B). f_equal. apply existsb_exists. exists ix. split; [apply in_indices; exact P|]. rewrite A, Nat.eqb_refl. exact B.
Qed.
(** Everything after line 410. *)
Definition rest (l : located V) : res (option (list str * list nat * (list nat -> option W))) :=
  let uind := where_from 0 (sampled (lc_shape l)) in
  let dtimes := flat_map (fun i => match py_get times i with Some t => [t] | None => [] end) uind in
  pairs <- vort_pairs b dtimes max_sdiff mn mx ks ;;
  if (length (lc_hshape l) =? 0)%nat && negb (length pairs =? 0)%nat then Err IndexError else
  Ok (Some (lc_coords l, lc_shape l, fill_all normal l mask uind pairs (fun _ => None))).
Lemma convert_all_rest pandas idx latc ltc lat lt h dat l : prepare pandas idx (length times) latc ltc lat lt h dat = Ok l -> length (lc_coords l) = length (lc_shape l) -> b_records b <> 0 ->
  convert_all normal b pandas idx times latc ltc lat lt h dat mask max_sdiff mn mx ks = rest l.
Proof.
  intros P L R. unfold convert_all, rest. rewrite (proj2 (Z.eqb_neq _ _) R), P. cbn [bind]. rewrite L, Nat.eqb_refl. reflexivity.
Qed.
Lemma rest_spec l : 0 < b_records b -> (lc_hshape l <> []) ->
  (rest l = Err TypeError /\ forall ix r, position (lc_shape l) ix -> (hd 0%nat ix < length times)%nat -> mask ix = true -> usable r -> ~ within (b_dtime b) times tol r (Z.of_nat (hd 0%nat ix))) \/
  exists out, rest l = Ok (Some (lc_coords l, lc_shape l, out)) /\
   forall ix, position (lc_shape l) ix -> (hd 0%nat ix < length times)%nat ->
    (forall r, mask ix = true -> closest (b_dtime b) times usable (Z.of_nat (hd 0%nat ix)) r -> within (b_dtime b) times tol r (Z.of_nat (hd 0%nat ix)) -> out ix = one_place normal l r ix) /\
    (mask ix = false \/ (forall r, usable r -> ~ within (b_dtime b) times tol r (Z.of_nat (hd 0%nat ix))) -> out ix = None).
Proof.
  intros RP NH. set (keep := sampled (lc_shape l)).
  pose proof (convert_spec (fun r _ : Z => r) b times keep max_sdiff mn mx ks WB WC SB ST T0 RI (sampled_length (lc_shape l)) RP) as C.
  assert (HN : (length (lc_hshape l) =? 0)%nat = false) by (apply Nat.eqb_neq; destruct (lc_hshape l); [congruence|discriminate]).
  destruct C as [[E N]|(rs & E & LR & S)].
  - left. split.
    + unfold rest. fold keep. cbv zeta. unfold convert in E. destruct (b_records b =? 0) eqn:Z0; [apply Z.eqb_eq in Z0; lia|].
      cbn [andb] in E. destruct (vort_pairs b _ max_sdiff mn mx ks) as [p|e]; cbn [bind] in E |- *; [discriminate E|]. injection E as ->. reflexivity.
    + intros ix r P L M U. apply (N (hd 0%nat ix) r); [|exact U]. apply sampled_nth; [exact L|]. exists ix. auto.
  - right. unfold convert in E. destruct (b_records b =? 0) eqn:Z0; [apply Z.eqb_eq in Z0; lia|]. cbn [andb] in E.
    destruct (vort_pairs b _ max_sdiff mn mx ks) as [p|e] eqn:EP; cbn [bind] in E; [|discriminate E]. injection E as E.
    unfold rest. fold keep. cbv zeta. rewrite EP. cbn [bind]. rewrite HN. cbn [andb]. eexists. split; [reflexivity|].
    intros ix P L.
    destruct (mask ix) eqn:M.
    2:{ split; [discriminate|]. intros _. rewrite fill_all_unmasked by exact M. reflexivity. }
    assert (K : nth_error keep (hd 0%nat ix) = Some true) by (apply sampled_nth; [exact L|exists ix; auto]).
    assert (F : fill_all normal l mask (where_from 0 keep) p (fun _ => None) ix = from_record normal l (nth_error rs (hd 0%nat ix)) ix).
    { rewrite <- E. apply fill_all_fill; [exact M| | | |].
      - intros u I. apply (uind_in times keep max_sdiff (sampled_length (lc_shape l))) in I. unfold zlen. rewrite repeat_length. apply I.
      - rewrite repeat_length. exact L.
      - intros i r I. set (dat := flat_map (fun i => match py_get times i with Some t => [t] | None => [] end) (where_from 0 keep)) in *.
        destruct (list_eq_dec Z.eq_dec dat []) as [Ed|Nd].
        + rewrite Ed in EP. unfold vort_pairs in EP. cbn [length vort_loop] in EP. unfold zlen in EP. cbn [length Z.of_nat Z.ltb Z.compare andb] in EP. injection EP as <-. destruct I.
        + destruct (vort_pairs_spec b dat max_sdiff mn mx ks WB WC SB (dat_sorted times keep max_sdiff ST (sampled_length (lc_shape l))) T0 RI Nd) as [[D E2]|[_ [p' [E2 [_ PE]]]]]; [congruence|].
          assert (p' = p) by congruence. subst p'. apply PE in I. unfold dat in I. rewrite (dat_len times keep max_sdiff (sampled_length (lc_shape l))) in I. apply I.
      - rewrite nth_error_repeat by exact L. reflexivity. }
    destruct (S (hd 0%nat ix) L) as [A B]. split.
    + intros r _ C Wi. rewrite F, (A r K C Wi). reflexivity.
    + intros [X|X]; [discriminate|]. rewrite F, B by (right; exact X). reflexivity.
Qed.
(** One height that was not repeated. *)
Lemma rest_single l ix r : 0 < b_records b -> lc_hshape l = [] -> position (lc_shape l) ix -> (hd 0%nat ix < length times)%nat -> mask ix = true -> usable r ->
  closest (b_dtime b) times usable (Z.of_nat (hd 0%nat ix)) r -> within (b_dtime b) times tol r (Z.of_nat (hd 0%nat ix)) -> rest l = Err IndexError.
Proof.
  intros RP NH P L M U C Wi. set (keep := sampled (lc_shape l)).
  assert (K : nth_error keep (hd 0%nat ix) = Some true) by (apply sampled_nth; [exact L|exists ix; auto]).
  destruct (convert_spec (fun r _ : Z => r) b times keep max_sdiff mn mx ks WB WC SB ST T0 RI (sampled_length (lc_shape l)) RP) as [[E N]|(rs & E & LR & S)].
  - exfalso. apply (N _ r K U Wi).
  - unfold convert in E. destruct (b_records b =? 0) eqn:Z0; [apply Z.eqb_eq in Z0; lia|]. cbn [andb] in E.
    destruct (vort_pairs b _ max_sdiff mn mx ks) as [p|e] eqn:EP; cbn [bind] in E; [|discriminate E]. injection E as E.
    unfold rest. fold keep. cbv zeta. rewrite EP. cbn [bind]. rewrite NH. cbn [length Nat.eqb andb].
    destruct p as [|x p]; [|reflexivity]. exfalso. cbn [fill] in E. destruct (S (hd 0%nat ix) L) as [A _]. specialize (A r K C Wi). rewrite <- E, nth_error_repeat in A by exact L. discriminate A.
Qed.
End Loop.
