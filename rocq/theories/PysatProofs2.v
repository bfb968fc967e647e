(** Lemmas about PysatModel: the output of an instrument with one time coordinate. *)
From Coq Require Import String Ascii ZArith QArith List Bool Sorted Lia.
From Verif Require Import PyBase CycleModel CycleSpec CycleProofs DriverModel DriverSpec DriverProofs PropertiesCycle PysatModel PysatSpec PysatProofs.
Import ListNotations.
Open Scope list_scope.
Open Scope Z_scope.

Lemma sorted_nth (l : list Z) : StronglySorted Z.lt l -> forall i j a b, (i < j)%nat -> nth_error l i = Some a -> nth_error l j = Some b -> a < b.
Proof.
  induction 1 as [|x l S IH F]; intros i j a b L A B; [destruct i; discriminate|].
  destruct j as [|j]; [lia|]. destruct i as [|i]; cbn [nth_error] in *.
  - injection A as <-. rewrite Forall_forall in F. apply F. eapply nth_error_In; exact B.
  - apply (IH i j); try assumption. lia.
Qed.

Section Convert.
Context {V : Type} (conv : Z -> Z -> V).
Variables (b : boundary) (times : list Z) (keep : list bool) (max_sdiff : Z) (mn mx : option num) (ks : list crit).
Hypothesis W : wf_boundary b.
Hypothesis WC : wf_crits b ks.
Hypothesis SB : strictly_time_sorted (b_dtime b).
Hypothesis ST : time_sorted times.
Hypothesis T0 : 0 <= max_sdiff.
Hypothesis RI : -1 <= b_rec_ind b < b_records b.
Hypothesis LK : length keep = length times.
Let usable := candidate (good_record b mn mx ks) (b_records b) (b_rec_ind b).
Let tol := max_sdiff * 1000000.
Let uind := where_from 0 keep.
Let dat := flat_map (fun i => match py_get times i with Some t => [t] | None => [] end) uind.

Lemma uind_in u : In u uind <-> 0 <= u < zlen times /\ nth_error keep (Z.to_nat u) = Some true.
Proof.
  unfold uind. destruct (where_spec keep 0) as [_ H]. rewrite H, Z.sub_0_r. split; intros [A E]; split; try exact E; [|lia].
  split; [exact A|]. assert (L : (Z.to_nat u < length keep)%nat) by (apply nth_error_Some; congruence). unfold zlen. lia.
Qed.
Lemma dat_map : dat = map (tm times) uind.
Proof.
  unfold dat. assert (A : forall u, In u uind -> 0 <= u < zlen times) by (intros u I; apply uind_in in I; apply I).
  induction uind as [|u l IH]; [reflexivity|]. cbn [flat_map map]. rewrite IH by (intros u' I; apply A; right; exact I).
  destruct (py_get_some times u) as (t & -> & E); [apply A; left; reflexivity|]. cbn [app]. f_equal. unfold tm. symmetry. apply nth_error_nth. exact E.
Qed.
Lemma dat_tm i u : nth_error uind i = Some u -> tm dat (Z.of_nat i) = tm times u.
Proof.
  intros E. rewrite dat_map. unfold tm at 1. rewrite Nat2Z.id. apply nth_error_nth. rewrite nth_error_map, E. reflexivity.
Qed.
Lemma dat_len : zlen dat = zlen uind.
Proof. rewrite dat_map. unfold zlen. rewrite map_length. reflexivity. Qed.
Lemma uind_nth i : 0 <= i < zlen uind -> exists u, py_get uind i = Some u /\ nth_error uind (Z.to_nat i) = Some u /\ In u uind /\ tm dat i = tm times u.
Proof.
  intros H. destruct (py_get_some uind i H) as (u & A & B). exists u. split; [exact A|]. split; [exact B|]. split; [eapply nth_error_In; exact B|].
  rewrite <- (dat_tm _ _ B). f_equal. lia.
Qed.
Lemma dat_sorted : time_sorted dat.
Proof.
  intros i j A B. rewrite dat_len in B. destruct (uind_nth i) as (u & _ & Nu & Iu & ->); [lia|]. destruct (uind_nth j) as (v & _ & Nv & Iv & ->); [lia|].
  apply uind_in in Iu. apply uind_in in Iv. apply ST; [|lia]. split; [lia|].
  destruct (Z.eq_dec i j) as [->|N]; [assert (u = v) by congruence; lia|]. apply Z.lt_le_incl.
  apply (sorted_nth uind (proj1 (where_spec keep 0)) (Z.to_nat i) (Z.to_nat j)); try assumption. lia.
Qed.
Lemma in_uind_index u : In u uind -> exists i, 0 <= i < zlen uind /\ py_get uind i = Some u /\ tm dat i = tm times u.
Proof.
  intros I. apply In_nth_error in I. destruct I as [n E]. assert (L : (n < length uind)%nat) by (apply nth_error_Some; congruence).
  exists (Z.of_nat n). split; [unfold zlen; lia|]. split; [|apply dat_tm; exact E].
  rewrite py_get_in by (unfold zlen; lia). rewrite Nat2Z.id. exact E.
Qed.
Lemma convert_spec : 0 < b_records b ->
  (convert conv false b times keep max_sdiff mn mx ks = Err TypeError /\
   forall s r, nth_error keep s = Some true -> usable r -> ~ within (b_dtime b) times tol r (Z.of_nat s)) \/
  exists out, convert conv false b times keep max_sdiff mn mx ks = Ok (Some out) /\ length out = length times /\
   forall s, (s < length times)%nat ->
    (forall r, nth_error keep s = Some true -> closest (b_dtime b) times usable (Z.of_nat s) r -> within (b_dtime b) times tol r (Z.of_nat s) ->
       nth_error out s = Some (Some (conv r (Z.of_nat s)))) /\
    (nth_error keep s <> Some true \/ (forall r, usable r -> ~ within (b_dtime b) times tol r (Z.of_nat s)) -> nth_error out s = Some None).
Proof.
  intros RP. unfold convert. cbn [andb]. destruct (b_records b =? 0) eqn:EZ; [apply Z.eqb_eq in EZ; lia|]. fold uind. fold dat.
  assert (FIN : forall pairs, vort_pairs b dat max_sdiff mn mx ks = Ok pairs -> pairs_exactly (b_dtime b) dat usable tol pairs ->
    exists out, (pairs <- vort_pairs b dat max_sdiff mn mx ks ;; Ok (Some (fill conv uind pairs (repeat None (length times))))) = Ok (Some out) /\ length out = length times /\
    forall s, (s < length times)%nat ->
    (forall r, nth_error keep s = Some true -> closest (b_dtime b) times usable (Z.of_nat s) r -> within (b_dtime b) times tol r (Z.of_nat s) ->
       nth_error out s = Some (Some (conv r (Z.of_nat s)))) /\
    (nth_error keep s <> Some true \/ (forall r, usable r -> ~ within (b_dtime b) times tol r (Z.of_nat s)) -> nth_error out s = Some None)).
  { intros pairs E [PS PE]. rewrite E. cbn [bind]. eexists. split; [reflexivity|]. split; [rewrite fill_length, repeat_length; reflexivity|]. intros s Ls.
    destruct (fill_spec conv uind (proj1 (where_spec keep 0)) pairs (repeat None (length times)) PS) with (s := s) as [A B].
    { intros i r I. apply PE in I. rewrite dat_len in I. apply I. }
    { intros u I. apply uind_in in I. unfold zlen. rewrite repeat_length. apply I. }
    split.
    - intros r K C Wi. assert (Iu : In (Z.of_nat s) uind) by (apply uind_in; rewrite Nat2Z.id; split; [unfold zlen; lia|exact K]).
      destruct (in_uind_index _ Iu) as (i & Ri & G & Et). apply (A i r); [|exact G]. apply PE. rewrite dat_len. split; [exact Ri|]. unfold within, closest in *. rewrite Et. split; [exact Wi|exact C].
    - intros H. rewrite B; [apply nth_error_repeat; exact Ls|]. intros i r I G. apply PE in I. rewrite dat_len in I. destruct I as (Ri & Wi & C).
      destruct (uind_nth i Ri) as (u & G' & _ & Iu & Et). assert (u = Z.of_nat s) by congruence. subst u. apply uind_in in Iu. rewrite Nat2Z.id in Iu.
      destruct H as [H|H]; [apply H; apply Iu|]. unfold within in *. rewrite Et in Wi. apply (H r); [apply C|exact Wi]. }
  destruct (list_eq_dec Z.eq_dec dat []) as [Ed|Nd].
  - right. apply (FIN []).
    + rewrite Ed. unfold vort_pairs. cbn [length vort_loop]. unfold zlen. cbn [length Z.of_nat Z.ltb Z.compare andb]. reflexivity.
    + split; [constructor|]. intros i r. rewrite Ed. unfold zlen. cbn. split; [intros []|]. intros (A & _). lia.
  - destruct (vort_pairs_spec b dat max_sdiff mn mx ks W WC SB dat_sorted T0 RI Nd) as [[D E]|[_ [l [E P]]]].
    2:{ right. exact (FIN l E P). }
    left. rewrite E. split; [reflexivity|]. intros s r K U Wi.
    assert (Ls : (s < length times)%nat) by (rewrite <- LK; apply nth_error_Some; congruence).
    assert (Iu : In (Z.of_nat s) uind) by (apply uind_in; rewrite Nat2Z.id; split; [unfold zlen; lia|exact K]).
    destruct (in_uind_index _ Iu) as (i & Ri & G & Et). rewrite <- dat_len in Ri.
    assert (T0i : tm dat 0 <= tm dat i) by (apply dat_sorted; lia).
    unfold within in Wi. rewrite <- Et in Wi. unfold usec in D. unfold tol in Wi. destruct D as [[_ A]|[Er (j & Rj & Gj & Fj & A)]].
    + specialize (A r U). lia.
    + specialize (A i Ri). destruct U as [Rr [->|[_ Gr]]]; [lia|].
      assert (L : j <= r) by (destruct (Z_lt_le_dec r j) as [L|L]; [exfalso; apply (Fj r); [lia|exact Gr]|exact L]).
      assert (T : tm (b_dtime b) j <= tm (b_dtime b) r).
      { destruct (Z.eq_dec j r) as [->|N]; [lia|]. apply Z.lt_le_incl. apply SB; [lia|]. destruct W as (_ & WL & _). rewrite WL. lia. }
      lia.
Qed.
End Convert.
