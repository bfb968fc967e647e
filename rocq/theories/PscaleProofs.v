(** Lemmas about PscaleModel. *)
From Coq Require Import String Ascii ZArith QArith List Bool Lia Sorted Permutation.
From Verif Require Import PyBase TimeModel FilesModel FilesProofs SmagModel CycleModel CycleSpec CycleProofs DriverModel DriverSpec DriverProofs PropertiesCycle PysatModel PysatSpec PysatProofs PysatProofs2 PysatProofs3 PysatProofs4 PcoordModel PcoordSpec PcoordProofs PcoordProofs3 PscaleModel PscaleSpec.
Import ListNotations.
Open Scope list_scope.

(** ** Selections are unique *)
Lemma earlier_irrefl a : ~ earlier a a.
Proof. induction a as [|i a IH]; cbn; [tauto|]. intros [H|[_ H]]; [lia|exact (IH H)]. Qed.
Lemma earlier_trans a : forall b c, earlier a b -> earlier b c -> earlier a c.
Proof.
  induction a as [|i a IH]; intros [|j b] [|k c]; cbn; try tauto. intros [H|[-> H]] [K|[-> K]]; [left; lia|left; lia|left; lia|right]. split; [reflexivity|]. eapply IH; eassumption.
Qed.
Lemma sorted_unique : forall l m : list (list nat), StronglySorted earlier l -> StronglySorted earlier m -> (forall x, In x l <-> In x m) -> l = m.
Proof.
  induction l as [|a l IH]; intros [|b m] SL SM H.
  - reflexivity.
  - exfalso. apply (H b). left. reflexivity.
  - exfalso. apply (H a). left. reflexivity.
  - apply StronglySorted_inv in SL. destruct SL as [SL FA]. apply StronglySorted_inv in SM. destruct SM as [SM FB]. rewrite Forall_forall in FA, FB.
    assert (E : a = b).
    { destruct (proj1 (H a) (or_introl eq_refl)) as [E|I]; [congruence|]. destruct (proj2 (H b) (or_introl eq_refl)) as [E|J]; [exact E|].
      exfalso. apply (earlier_irrefl a). apply earlier_trans with b; [apply FA, J|apply FB, I]. }
    subst b. f_equal. apply IH; try assumption. intros x. split; intros I.
    + destruct (proj1 (H x) (or_intror I)) as [<-|J]; [|exact J]. exfalso. apply (earlier_irrefl a). apply FA, I.
    + destruct (proj2 (H x) (or_intror I)) as [<-|J]; [|exact J]. exfalso. apply (earlier_irrefl a). apply FB, I.
Qed.
Lemma selection_unique shape sel sel' l m : (forall ix, position shape ix -> sel ix = sel' ix) -> selection shape sel l -> selection shape sel' m -> l = m.
Proof.
  intros E [A S] [B S']. apply sorted_unique; try assumption. intros x. rewrite A, B. split; intros [P Q]; (split; [exact P|]); [rewrite <- E|rewrite E]; assumption.
Qed.

(** ** Reordering *)
Lemma reorder_same names ix : NoDup names -> length ix = length names -> reorder names names ix = ix.
Proof.
  intros N L. apply (nth_ext _ _ 0%nat 0%nat); [unfold reorder; rewrite map_length; symmetry; exact L|]. intros b Hb. unfold reorder in *. rewrite map_length in Hb.
  destruct (nth_error names b) as [d|] eqn:E; [|apply nth_error_None in E; lia].
  erewrite nth_error_nth; [|apply map_nth_error; exact E]. rewrite (nindex_nth d names b N E). reflexivity.
Qed.
Lemma same_place_reorder names ix dims jx : NoDup names -> incl dims names -> same_place names ix dims jx -> jx = reorder names dims ix.
Proof.
  intros N I [L H]. apply (nth_ext _ _ 0%nat 0%nat); [unfold reorder; rewrite map_length; exact L|]. intros a Ha. rewrite L in Ha.
  destruct (nth_error dims a) as [d|] eqn:E; [|apply nth_error_None in E; lia]. unfold reorder. erewrite (nth_error_nth (map _ dims)); [|apply map_nth_error; exact E].
  apply (H a (nindex d names) d E). apply nindex_in, I. eapply nth_error_In. exact E.
Qed.
Lemma reorder_same_place names ix dims : NoDup names -> incl dims names -> same_place names ix dims (reorder names dims ix).
Proof.
  intros N I. split; [apply map_length|]. intros a b d A B. unfold reorder. erewrite nth_error_nth; [|apply map_nth_error; exact A]. rewrite (nindex_nth d names b N B). reflexivity.
Qed.

(** ** The values at one time *)
Section Values.
Context {V : Type} (nan : V) (names : list str) (shape : list nat) (mask : list nat -> bool).
Hypothesis NN : NoDup names.
Hypothesis LN : length names = length shape.
Definition at_time (u : Z) (ix : list nat) : bool := mask ix && (Z.of_nat (hd 0%nat ix) =? u)%Z.
Definition own (d : nd V) (ix : list nat) : V := nd_at d (reorder names (nd_dims d) ix).
(** A variable whose values are found. *)
Definition found (d : nd V) : Prop := on_first names shape d \/ on_all names shape d /\ boxes shape mask.
Lemma boxes_at u : (0 <= u)%Z -> boxes shape mask -> box shape (at_time u).
Proof.
  intros G B. destruct (B (Z.to_nat u)) as (chosen & C). exists chosen. intros ix P. rewrite <- (C ix P). unfold at_time, used_at. rewrite !andb_true_iff, Z.eqb_eq, Nat.eqb_eq. split; intros [A X]; (split; [exact A|lia]).
Qed.
Lemma time_mask_shape u : nd_shape (time_mask names shape names mask u) = shape.
Proof. cbn. apply reorder_same; [exact NN|symmetry; exact LN]. Qed.
Lemma time_mask_at u ix : position shape ix -> nd_at (time_mask names shape names mask u) ix = at_time u ix.
Proof. intros P. cbn. rewrite reorder_same; [reflexivity|exact NN|]. rewrite (position_length _ _ P). symmetry. exact LN. Qed.
Lemma flatten_found d u : (0 <= u)%Z -> found d -> flatten nan d (time_mask names shape names mask u) = Ok (map (own d) (filter (at_time u) (indices shape))).
Proof.
  intros U0 [(k & K & L & N & P & S & NE)|[[D S] B]].
  - destruct (flatten_pad nan d (time_mask names shape names mask u) k) as (l & vals & SL & E & F); try assumption.
    + rewrite time_mask_shape. symmetry. exact LN.
    + rewrite time_mask_shape. exact S.
    + intros X. apply NE. symmetry. exact X.
    + rewrite E. f_equal. rewrite time_mask_shape in SL.
      assert (l = filter (at_time u) (indices shape)) as <-.
      { apply (selection_unique shape (nd_at (time_mask names shape names mask u)) (at_time u)); [intros ix Q; apply time_mask_at; exact Q|exact SL|apply select_indices]. }
      clear - F P NN. induction F as [|ix v l vals (jx & J & ->) F IH]; [reflexivity|]. cbn [map]. f_equal; [|exact IH]. unfold own. f_equal. apply same_place_reorder; [exact NN| |exact J].
      intros x I. apply (Permutation_in _ P) in I. rewrite <- (firstn_skipn k names). apply in_or_app. left. exact I.
  - destruct (flatten_same nan d (time_mask names shape names mask u)) as (l & SL & E).
    + symmetry. exact D.
    + rewrite time_mask_shape. symmetry. exact S.
    + rewrite time_mask_shape. destruct (boxes_at u U0 B) as (chosen & C). exists chosen. intros ix Q. rewrite time_mask_at by exact Q. apply C. exact Q.
    + rewrite E. f_equal. rewrite time_mask_shape in SL.
      assert (l = filter (at_time u) (indices shape)) as ->.
      { apply (selection_unique shape (nd_at (time_mask names shape names mask u)) (at_time u)); [intros ix Q; apply time_mask_at; exact Q|exact SL|apply select_indices]. }
      apply map_ext_in. intros ix I. unfold own. rewrite D, reorder_same; [reflexivity|exact NN|]. apply filter_In in I. destruct I as [I _]. apply in_indices in I. rewrite (position_length _ _ I). symmetry. exact LN.
Qed.
Lemma columns_found u datas : (0 <= u)%Z -> Forall found datas ->
  columns nan names shape names mask u (length (filter (at_time u) (indices shape))) datas = Ok (map (fun d => map (own d) (filter (at_time u) (indices shape))) datas).
Proof.
  intros U0. induction 1 as [|d datas H F IH]; [reflexivity|]. cbn [columns map]. rewrite (flatten_found d u U0 H). cbn [bind]. unfold stretch. rewrite map_length, Nat.eqb_refl. cbn [bind]. rewrite IH. reflexivity.
Qed.
Lemma place_of_some ix l : In ix l -> exists k, place_of ix l = Some k /\ nth_error l k = Some ix.
Proof.
  induction l as [|p l IH]; intros I; [destruct I|]. cbn [place_of]. destruct (list_eqb Nat.eqb ix p) eqn:E; [apply nats_eqb in E; subst; exists 0%nat; auto|].
  destruct I as [->|I]; [rewrite (proj2 (nats_eqb _ _) eq_refl) in E; discriminate|]. destruct (IH I) as (k & A & B). exists (S k). rewrite A. auto.
Qed.
Lemma place_of_none ix l : ~ In ix l -> place_of ix l = None.
Proof.
  induction l as [|p l IH]; intros I; [reflexivity|]. cbn [place_of]. destruct (list_eqb Nat.eqb ix p) eqn:E; [apply nats_eqb in E; subst; exfalso; apply I; left; reflexivity|].
  rewrite IH; [reflexivity|]. intros J. apply I. right. exact J.
Qed.
Lemma nth_all_own datas l k ix : nth_error l k = Some ix -> nth_all k (map (fun d => map (own d) l) datas) = Some (map (fun d => own d ix) datas).
Proof. intros E. induction datas as [|d datas IH]; [reflexivity|]. cbn [map nth_all]. rewrite (map_nth_error _ _ _ E), IH. reflexivity. Qed.
End Values.

(** ** The loop *)
Section Fill.
Context {V W U : Type} (nan : V) (normal : Z -> V -> V -> V -> W) (scale : Z -> W -> list V -> U) (l : located V) (mask : list nat -> bool) (datas : list (nd V)) (uind : list Z).
Hypothesis NN : NoDup (lc_coords l).
Hypothesis LN : length (lc_coords l) = length (lc_shape l).
Hypothesis FD : Forall (found (lc_coords l) (lc_shape l) mask) datas.
Definition scaled_at (r : Z) (ix : list nat) : option U :=
  match one_place normal l r ix with Some w => Some (scale r w (map (fun d => own (lc_coords l) d ix) datas)) | None => None end.
Definition scaled_from (o : option (option Z)) (ix : list nat) : option U := match o with Some (Some r) => scaled_at r ix | _ => None end.
Open Scope Z_scope.
Lemma scale_all_fill : forall pairs out rs, (forall u, In u uind -> 0 <= u < zlen rs) -> (forall i r, In (i, r) pairs -> 0 <= i < zlen uind) ->
  (forall ix, position (lc_shape l) ix -> (hd 0%nat ix < length rs)%nat) ->
  (forall ix, position (lc_shape l) ix -> out ix = if mask ix then scaled_from (nth_error rs (hd 0%nat ix)) ix else None) ->
  exists out', scale_all nan normal scale l (lc_coords l) mask datas uind pairs out = Ok out' /\
    forall ix, position (lc_shape l) ix -> out' ix = if mask ix then scaled_from (nth_error (fill (fun r _ => r) uind pairs rs) (hd 0%nat ix)) ix else None.
Proof.
  induction pairs as [|[i r] t IH]; intros out rs UI RI L E; [exists out; split; [reflexivity|exact E]|]. cbn [scale_all fill].
  destruct (py_get_some uind i) as (u & G & Nu); [apply (RI i r); left; reflexivity|]. rewrite G.
  assert (Ub : 0 <= u < zlen rs) by (apply UI; eapply nth_error_In; exact Nu). unfold zlen in Ub.
  change (filter (fun ix => mask ix && (Z.of_nat (hd 0%nat ix) =? u)) (indices (lc_shape l))) with (filter (at_time mask u) (indices (lc_shape l))).
  rewrite (columns_found nan (lc_coords l) (lc_shape l) mask NN LN u datas (proj1 Ub) FD). cbn [bind]. apply IH.
  - intros v I. unfold zlen. rewrite put_at_length. apply UI. exact I.
  - intros i' r' I. apply (RI i' r'). right. exact I.
  - intros ix P. rewrite put_at_length. apply L, P.
  - intros ix P. rewrite put_at_spec by lia. set (places := filter (at_time mask u) (indices (lc_shape l))).
    assert (IP : In ix places <-> mask ix = true /\ Z.of_nat (hd 0%nat ix) = u).
    { unfold places. rewrite filter_In, in_indices. unfold at_time. rewrite andb_true_iff, Z.eqb_eq. tauto. }
    destruct (mask ix) eqn:M; [destruct (Z.eq_dec (Z.of_nat (hd 0%nat ix)) u) as [Q|Q]|].
    + destruct (place_of_some ix places) as (k & A & B); [apply IP; auto|]. rewrite A, (nth_all_own (lc_coords l) datas places k ix B).
      rewrite <- Q, Nat2Z.id, Nat.eqb_refl. reflexivity.
    + rewrite place_of_none by (intros I; apply IP in I; tauto). rewrite (proj2 (Nat.eqb_neq _ _)) by lia. rewrite E by exact P. rewrite M. reflexivity.
    + rewrite place_of_none by (intros I; apply IP in I; destruct I; discriminate). rewrite E by exact P. rewrite M. reflexivity.
Qed.
End Fill.

Section Loop.
Context {V W U : Type} (nan : V) (normal : Z -> V -> V -> V -> W) (scale : Z -> W -> list V -> U).
Variables (b : boundary) (times : list Z) (mask : list nat -> bool) (max_sdiff : Z) (mn mx : option num) (ks : list crit).
Open Scope Z_scope.
Hypothesis WB : wf_boundary b.
Hypothesis WC : wf_crits b ks.
Hypothesis SB : strictly_time_sorted (b_dtime b).
Hypothesis ST : time_sorted times.
Hypothesis T0 : 0 <= max_sdiff.
Hypothesis RI : -1 <= b_rec_ind b < b_records b.
Let usable := candidate (good_record b mn mx ks) (b_records b) (b_rec_ind b).
Let tol := max_sdiff * 1000000.
Definition rest_scaled (l : located V) (tdims : list str) (datas : list (nd V)) : res (option (list str * list nat * (list nat -> option U))) :=
  let uind := where_from 0 (sampled times mask (lc_shape l)) in
  let dtimes := flat_map (fun i => match py_get times i with Some t => [t] | None => [] end) uind in
  pairs <- vort_pairs b dtimes max_sdiff mn mx ks ;;
  if (length (lc_hshape l) =? 0)%nat && negb (length pairs =? 0)%nat then Err IndexError else
  out <- scale_all nan normal scale l tdims mask datas uind pairs (fun _ => None) ;;
  Ok (Some (lc_coords l, lc_shape l, out)).
Lemma scaled_all_rest lat_data lt_data vars datas idx latc ltc lat lt h dat l : prepare false idx (length times) latc ltc lat lt h dat = Ok l -> length (lc_coords l) = length (lc_shape l) -> b_records b <> 0 ->
  scaled_all nan normal scale b lat_data lt_data vars datas idx times latc ltc lat lt h dat mask max_sdiff mn mx ks = rest_scaled l (map fst (time_coords lat_data lt_data latc ltc vars)) datas.
Proof.
  intros P L R. unfold scaled_all, rest_scaled. rewrite (proj2 (Z.eqb_neq _ _) R), P. cbn [bind]. rewrite L, Nat.eqb_refl. reflexivity.
Qed.
Lemma rest_scaled_spec l datas : 0 < b_records b -> lc_hshape l <> [] -> NoDup (lc_coords l) -> length (lc_coords l) = length (lc_shape l) ->
  Forall (found (lc_coords l) (lc_shape l) mask) datas -> (forall ix, position (lc_shape l) ix -> (hd 0%nat ix < length times)%nat) ->
  (rest_scaled l (lc_coords l) datas = Err TypeError /\ forall ix r, position (lc_shape l) ix -> mask ix = true -> usable r -> ~ within (b_dtime b) times tol r (Z.of_nat (hd 0%nat ix))) \/
  exists out, rest_scaled l (lc_coords l) datas = Ok (Some (lc_coords l, lc_shape l, out)) /\
   forall ix, position (lc_shape l) ix ->
    (forall r, mask ix = true -> closest (b_dtime b) times usable (Z.of_nat (hd 0%nat ix)) r -> within (b_dtime b) times tol r (Z.of_nat (hd 0%nat ix)) -> out ix = scaled_at normal scale l datas r ix) /\
    (mask ix = false \/ (forall r, usable r -> ~ within (b_dtime b) times tol r (Z.of_nat (hd 0%nat ix))) -> out ix = None).
Proof.
  intros RP NH NN LN FD HT. set (keep := sampled times mask (lc_shape l)). assert (KL : length keep = length times) by apply sampled_length.
  pose proof (convert_spec (fun r _ : Z => r) b times keep max_sdiff mn mx ks WB WC SB ST T0 RI KL RP) as C.
  assert (HN : (length (lc_hshape l) =? 0)%nat = false) by (apply Nat.eqb_neq; destruct (lc_hshape l); [congruence|discriminate]).
  destruct C as [[E N]|(rs & E & LR & S)].
  - left. split.
    + unfold rest_scaled. fold keep. cbv zeta. unfold convert in E. destruct (b_records b =? 0) eqn:Z0; [apply Z.eqb_eq in Z0; lia|].
      cbn [andb] in E. destruct (vort_pairs b _ max_sdiff mn mx ks) as [p|e]; cbn [bind] in E |- *; [discriminate E|]. injection E as ->. reflexivity.
    + intros ix r P M U'. apply (N (hd 0%nat ix) r); [|exact U']. apply sampled_nth; [apply HT, P|]. exists ix. auto.
  - right. unfold convert in E. destruct (b_records b =? 0) eqn:Z0; [apply Z.eqb_eq in Z0; lia|]. cbn [andb] in E.
    destruct (vort_pairs b _ max_sdiff mn mx ks) as [p|e] eqn:EP; cbn [bind] in E; [|discriminate E]. injection E as E.
    destruct (scale_all_fill nan normal scale l mask datas (where_from 0 keep) NN LN FD p (fun _ => None) (repeat None (length times))) as (out & X & Y).
    + intros u I. apply (uind_in times keep max_sdiff KL) in I. unfold zlen. rewrite repeat_length. apply I.
    + intros i r I. set (dat := flat_map (fun i => match py_get times i with Some t => [t] | None => [] end) (where_from 0 keep)) in *.
      destruct (list_eq_dec Z.eq_dec dat []) as [Ed|Nd].
      * rewrite Ed in EP. unfold vort_pairs in EP. cbn [length vort_loop] in EP. unfold zlen in EP. cbn [length Z.of_nat Z.ltb Z.compare andb] in EP. injection EP as <-. destruct I.
      * destruct (vort_pairs_spec b dat max_sdiff mn mx ks WB WC SB (dat_sorted times keep max_sdiff ST KL) T0 RI Nd) as [[D E2]|[_ [p' [E2 [_ PE]]]]]; [congruence|].
        assert (p' = p) by congruence. subst p'. apply PE in I. unfold dat in I. rewrite (dat_len times keep max_sdiff KL) in I. apply I.
    + intros ix P. rewrite repeat_length. apply HT, P.
    + intros ix P. rewrite nth_error_repeat by (apply HT, P). destruct (mask ix); reflexivity.
    + exists out. split; [unfold rest_scaled; fold keep; cbv zeta; rewrite EP; cbn [bind]; rewrite HN; cbn [andb]; rewrite X; reflexivity|].
      intros ix P. rewrite (Y ix P). destruct (mask ix) eqn:M.
      2:{ split; [discriminate|reflexivity]. }
      assert (K : nth_error keep (hd 0%nat ix) = Some true) by (apply sampled_nth; [apply HT, P|exists ix; auto]).
      destruct (S (hd 0%nat ix) (HT _ P)) as [A B]. split.
      * intros r _ Cl Wi. rewrite E, (A r K Cl Wi). reflexivity.
      * intros [Q|Q]; [discriminate|]. rewrite E, B by (right; exact Q). reflexivity.
Qed.
End Loop.
