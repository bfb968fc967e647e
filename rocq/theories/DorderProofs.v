(** The times of paired boundaries never decrease, whatever the order of the records. *)
From Coq Require Import ZArith QArith List Bool Lia Sorted.
From Verif Require Import PyBase CycleModel CycleSpec CycleProofs DriverModel DualModel DualSpec DualProofs.
Import ListNotations.
Open Scope Z_scope.

Lemma getE_range {A} (l : list A) i d : 0 <= i -> getE l i = Ok d -> i < zlen l.
Proof.
  intros H E. unfold getE, py_get in E. rewrite (proj2 (Z.leb_le _ _)) in E by exact H. cbn [andb] in E.
  destruct (i <? Z.of_nat (length l)) eqn:L; [apply Z.ltb_lt in L; exact L|].
  rewrite (proj2 (Z.ltb_ge i 0)), andb_false_r in E by exact H. discriminate.
Qed.

Section Order.
Variables (records : Z) (dtime : list Z) (cycle : Z -> res Z) (dat : list Z) (tol m : Z).
Hypothesis T0 : 0 <= tol.
(** The measurement or the record is not before [m]. *)
Notation reached rec i := ((forall d, getE dat i = Ok d -> m <= d) \/ (forall t, getE dtime rec = Ok t -> m < t - tol)).

Lemma main_order fuel : forall rec i last j r, 0 <= i -> reached rec i ->
  main_loop records dtime cycle dat tol fuel rec i last = Ok (Some j, r) -> r < records -> 0 <= j /\ forall d, getE dat j = Ok d -> m <= d.
Proof.
  induction fuel as [|f IH]; intros rec i last j r Hi R E Hr; cbn [main_loop] in E; destruct ((i <? zlen dat) && (rec <? records)) eqn:C; try discriminate.
  2: { apply andb_true_iff in C. destruct C as [C1 C2].
    destruct (getE dtime rec) as [t|] eqn:Et; [|discriminate]. destruct (getE dat i) as [d|] eqn:Ed; [|discriminate]. cbn [bind] in E.
    assert (R' : m <= d \/ m < t - tol) by (destruct R as [R|R]; [left; exact (R d eq_refl)|right; exact (R t eq_refl)]). clear R.
    destruct (t - d <? - tol) eqn:B1; [apply Z.ltb_lt in B1|apply Z.ltb_ge in B1; destruct (tol <? t - d) eqn:B2; [apply Z.ltb_lt in B2|apply Z.ltb_ge in B2]].
    - destruct (cycle rec) as [rec'|]; [|discriminate]. cbn [bind] in E. apply (IH rec' i (Some (t - d)) j r Hi); [|exact E|exact Hr].
      left. intros d' X. rewrite Ed in X. injection X as <-. lia.
    - apply (IH rec (i + 1) (Some (t - d)) j r); [lia| |exact E|exact Hr]. right. intros t' X. rewrite Et in X. injection X as <-. lia.
    - assert (j = i). { destruct (cycle rec) as [rec'|]; [|discriminate]. cbn [bind] in E. destruct (rec' <? records); [|congruence].
        destruct (getE dtime rec'); [|discriminate]. cbn [bind] in E. destruct (descend _ _ _ _ _ _ _ _ _); [|discriminate]. cbn [bind] in E. congruence. }
      subst j. split; [exact Hi|]. intros d' X. rewrite Ed in X. injection X as <-. lia. }
  all: assert (X : i = j /\ rec = r) by (destruct (i =? 0); [destruct last as [s|]; [|discriminate]; destruct (tol <? Z.abs s); [discriminate|]|]; split; congruence);
    destruct X as [<- <-]; split; [exact Hi|]; intros d X; apply getE_range in X; [|exact Hi];
    rewrite (proj2 (Z.ltb_lt _ _) X), (proj2 (Z.ltb_lt _ _) Hr) in C; discriminate.
Qed.

Lemma from_order rec i j r : 0 <= i -> reached rec i ->
  match_from records dtime cycle dat tol rec i = Ok (Some j, r) -> r < records -> 0 <= j /\ forall d, getE dat j = Ok d -> m <= d.
Proof.
  intros Hi R E Hr. unfold match_from in E. destruct (getE dtime rec) as [t|] eqn:Et; [|discriminate]. cbn [bind] in E.
  destruct (getE dat i) as [d|] eqn:Ed; [|discriminate]. cbn [bind] in E. destruct (t =? d) eqn:B.
  - apply Z.eqb_eq in B. subst t. injection E as <- <-. split; [exact Hi|]. intros d' X. rewrite Ed in X. injection X as <-.
    destruct R as [R|R]; [exact (R d eq_refl)|]. specialize (R d eq_refl). lia.
  - eapply main_order; [exact Hi| |exact E|exact Hr]. rewrite Et, Ed. exact R.
Qed.

Lemma skip_order fuel rec t : getE dtime rec = Ok t -> forall i i', 0 <= i -> reached rec i ->
  skip_early dat fuel i (t - tol) = Ok (Some i') -> 0 <= i' /\ reached rec i'.
Proof.
  intros Et. induction fuel as [|f IH]; intros i i' Hi R E; [discriminate|]. cbn [skip_early] in E.
  destruct (getE dat i) as [d|] eqn:Ed; [|discriminate]. cbn [bind] in E. destruct (d <? t - tol) eqn:B.
  - apply Z.ltb_lt in B. destruct (zlen dat <=? i + 1); [discriminate|]. apply (IH (i + 1)); [lia| |exact E].
    right. intros t' X. rewrite Et in X. injection X as <-. destruct R as [R|R]; [specialize (R d eq_refl); lia|exact (R t Et)].
  - injection E as <-. split; [exact Hi|]. rewrite Ed. exact R.
Qed.

Lemma core_order rec i j r : 0 <= i -> (forall d, getE dat i = Ok d -> m <= d) ->
  match_core records dtime cycle dat tol rec i = Ok (Some j, r) -> r < records -> 0 <= j /\ forall d, getE dat j = Ok d -> m <= d.
Proof.
  intros Hi R E Hr. unfold match_core in E. destruct (rec <? 0); [|eapply from_order; eauto].
  destruct (cycle rec) as [rec1|]; [|discriminate]. cbn [bind] in E. destruct (records <=? rec1) eqn:L.
  - injection E as <- <-. auto.
  - destruct (getE dtime rec1) as [t|] eqn:Et; [|discriminate]. cbn [bind] in E.
    destruct (skip_early _ _ _ _) as [[i1|]|] eqn:Es; cbn [bind] in E; try discriminate.
    destruct (skip_order _ rec1 t Et i i1 Hi (or_introl R) Es) as [A B]. eapply from_order; eauto.
Qed.
End Order.

(** The pairs are found with OCB times in order. *)
Lemma pair_order (time : Z -> Z) odat good delta mn mx ks : 0 <= delta ->
  (forall i io, 0 <= i -> getE good i = Ok io -> getE odat i = Ok (time io)) ->
  forall fuel e i m l, 0 <= i -> (forall d, getE odat i = Ok d -> m <= d) ->
    pair_loop fuel e odat good i delta mn mx ks = Ok l ->
    Forall (fun p => m <= time (fst p)) l /\ StronglySorted Z.le (map (fun p => time (fst p)) l).
Proof.
  intros D0 G. induction fuel as [|f IH]; intros e i m l Hi Hm E; cbn [pair_loop] in E; destruct (b_rec_ind e <? b_records e) eqn:C; try discriminate;
    try (injection E as <-; split; constructor).
  destruct (match_data_ocb e odat i delta mn mx ks) as [[[j|] e1]|] eqn:M; cbn [bind] in E; try discriminate.
  2: { assert (l = []) as -> by (destruct (b_rec_ind e1 <? b_records e1); [destruct (get_next_good_ocb_ind e1 mn mx ks); cbn [bind] in E; congruence|congruence]). split; constructor. }
  destruct ((j <? zlen good) && (b_rec_ind e1 <? b_records e1)) eqn:C1.
  2: { assert (l = []) as -> by (destruct (b_rec_ind e1 <? b_records e1); [destruct (get_next_good_ocb_ind e1 mn mx ks); cbn [bind] in E; congruence|congruence]). split; constructor. }
  apply andb_true_iff in C1. destruct C1 as [C1 C2]. apply Z.ltb_lt in C2.
  destruct (getE good j) as [io|] eqn:Eg; [|discriminate]. cbn [bind] in E.
  destruct (get_next_good_ocb_ind e1 mn mx ks) as [e2|]; [|discriminate]. cbn [bind] in E.
  destruct (pair_loop f e2 odat good j delta mn mx ks) as [rest|] eqn:P; [|discriminate]. cbn [bind] in E. injection E as <-.
  assert (J : 0 <= j /\ forall d, getE odat j = Ok d -> m <= d).
  { unfold match_data_ocb in M. destruct (zlen odat <=? i). { injection M as <- <-. auto. }
    destruct (b_records e <=? b_rec_ind e). { injection M as <- <-. auto. }
    destruct (match_core _ _ _ _ _ _ _) as [[o r]|] eqn:Mc; [|discriminate]. cbn [bind] in M. injection M as -> <-.
    eapply (core_order _ _ _ _ (delta * usec) m); [unfold usec; lia|exact Hi|exact Hm|exact Mc|exact C2]. }
  destruct J as [J1 J2]. pose proof (G j io J1 Eg) as Ot. specialize (J2 _ Ot).
  destruct (IH e2 j (time io) rest J1) as [F S]; [intros d X; rewrite Ot in X; injection X as <-; lia|exact P|].
  split; [constructor; [exact J2|]; eapply Forall_impl; [|exact F]; cbn; intros; lia|].
  cbn [map fst]. constructor; [exact S|]. apply Forall_map. exact F.
Qed.

(** The times of the pairs of a dual boundary. *)
Lemma pick_nth l idx r : pick l idx = Ok r -> Forall2 (fun i t => getE l i = Ok t) idx r.
Proof.
  revert r. induction idx as [|i idx IH]; intros r E; cbn [pick] in E; [injection E as <-; constructor|].
  destruct (getE l i) as [t|] eqn:Et; [|discriminate]. cbn [bind] in E. destruct (pick l idx) as [q|]; [|discriminate]. cbn [bind] in E.
  injection E as <-. constructor; auto.
Qed.
Lemma forall2_getE {A B} (R : A -> B -> Prop) l l' i a : Forall2 R l l' -> 0 <= i -> getE l i = Ok a -> exists b, getE l' i = Ok b /\ R a b.
Proof.
  intros F Hi E. pose proof (getE_range l i a Hi E) as L. assert (Ll : length l = length l') by (clear - F; induction F; cbn; congruence). unfold getE, py_get, zlen in *. rewrite <- Ll.
  rewrite (proj2 (Z.leb_le _ _)), (proj2 (Z.ltb_lt _ _)) in * by lia. cbn [andb] in *.
  assert (G : forall n, nth_error l n = Some a -> exists b, nth_error l' n = Some b /\ R a b).
  { clear - F. induction F as [|x y l l' H F IH]; intros [|n] E; cbn in *; try discriminate; eauto. injection E as ->. eauto. }
  destruct (nth_error l (Z.to_nat i)) as [a'|] eqn:N; [|discriminate]. injection E as ->. destruct (G _ N) as (b & -> & H). eauto.
Qed.

Theorem pairs_in_order d omn omx oks emn emx eks d' : 0 <= d_max_delta d ->
  set_good_ind d omn omx oks emn emx eks = Ok d' -> StronglySorted Z.le (d_dtime d').
Proof.
  intros D0 E. unfold set_good_ind in E. destruct (negb (d_loaded d)); [injection E as <-; constructor|].
  destruct (retrieve_all_good_indices _ _ _ _) as [[good ocb1]|]; [|discriminate]. cbn [bind] in E.
  destruct (pick (b_dtime ocb1) good) as [odat|] eqn:Po; [|discriminate]. cbn [bind] in E.
  destruct (pair_loop _ _ _ _ _ _ _ _ _) as [ps|] eqn:P; [|discriminate]. cbn [bind] in E.
  destruct (pick (b_dtime ocb1) (map fst ps)) as [dt|] eqn:Pd; [|discriminate]. cbn [bind] in E.
  set (time io := match getE (b_dtime ocb1) io with Ok t => t | Err _ => 0 end).
  apply pick_nth in Po. apply pick_nth in Pd.
  assert (T : dt = map time (map fst ps)).
  { clear - Pd. induction Pd as [|i t l l' H F IH]; [reflexivity|]. cbn [map]. f_equal; [unfold time; now rewrite H|exact IH]. }
  destruct (pair_order time odat good (d_max_delta d) emn emx eks D0) with (fuel := S (S (Z.to_nat (b_records (d_eab d))))) (e := set_rec_ind (d_eab d) (-1)) (i := 0)
    (m := match getE odat 0 with Ok t => t | Err _ => 0 end) (l := ps) as [_ S]; [|lia| |exact P|].
  - intros i io Hi Eg. destruct (forall2_getE _ _ _ i io Po Hi Eg) as (t & Et & H). unfold time. now rewrite H.
  - intros t X. rewrite X. lia.
  - assert (X : d_dtime d' = dt).
    { unfold dual_set_rec_ind in E. cbn [d_records d_ocb_ind d_eab_ind] in E. change (0 <? 0) with false in E. cbv iota in E.
      destruct (zlen ps <=? 0); [injection E as <-; reflexivity|].
      destruct (getE (map fst ps) 0); [|discriminate]. cbn [bind] in E. destruct (getE (map snd ps) 0); [|discriminate]. cbn [bind] in E. injection E as <-. reflexivity. }
    rewrite X, T, map_map. exact S.
Qed.
