(** Lemmas about CycleModel. *)
From Coq Require Import String ZArith QArith List Bool Lia Sorted Permutation.
From Verif Require Import PyBase CycleModel CycleSpec.
Import ListNotations.
Open Scope string_scope.
Open Scope list_scope.
Open Scope Z_scope.

Ltac zify_bool :=
  repeat match goal with
  | H : (_ && _)%bool = true |- _ => apply andb_true_iff in H; destruct H
  | H : (_ <? _) = true |- _ => apply Z.ltb_lt in H
  | H : (_ <? _) = false |- _ => apply Z.ltb_ge in H
  | H : (_ <=? _) = true |- _ => apply Z.leb_le in H
  | H : (_ <=? _) = false |- _ => apply Z.leb_gt in H
  | H : (_ =? _) = true |- _ => apply Z.eqb_eq in H
  | H : (_ =? _) = false |- _ => apply Z.eqb_neq in H
  end.

(** ** Indexing *)
Lemma py_get_in {A} (l : list A) i :
  0 <= i < zlen l -> py_get l i = nth_error l (Z.to_nat i).
Proof.
  intros H. unfold py_get, zlen in *.
  replace (0 <=? i) with true by (symmetry; apply Z.leb_le; lia).
  replace (i <? Z.of_nat (length l)) with true by (symmetry; apply Z.ltb_lt; lia).
  reflexivity.
Qed.

Lemma getE_in {A} (l : list A) i :
  0 <= i < zlen l -> exists a, getE l i = Ok a /\ nth_error l (Z.to_nat i) = Some a.
Proof.
  intros H. unfold getE. rewrite py_get_in by assumption.
  destruct (nth_error l (Z.to_nat i)) as [a|] eqn:E.
  - eauto.
  - apply nth_error_None in E. unfold zlen in H. lia.
Qed.

Lemma getE_tm l i : 0 <= i < zlen l -> getE l i = Ok (tm l i).
Proof.
  intros H. destruct (getE_in l i H) as [a [E1 E2]].
  rewrite E1. f_equal. unfold tm. symmetry. now apply nth_error_nth.
Qed.

(** ** Criteria *)
Lemma crit_rejects_spec op tv v :
  crit_rejects op tv v = false <-> satisfies op tv v.
Proof.
  unfold crit_rejects, satisfies.
  destruct (String.eqb_spec op "min") as [->|N1];
  [| destruct (String.eqb_spec op "mineq") as [->|N2];
  [| destruct (String.eqb_spec op "equal") as [->|N3];
  [| destruct (String.eqb_spec op "maxeq") as [->|N4];
  [| destruct (String.eqb_spec op "max") as [->|N5]]]]]; simpl.
  - destruct (nle tv v) eqn:E; simpl; split; intros H; try congruence.
    + destruct H as [H _]. specialize (H eq_refl). congruence.
    + repeat split; intros; congruence.
  - destruct (nlt tv v) eqn:E; simpl; split; intros H; try congruence.
    + destruct H as [_ [H _]]. specialize (H eq_refl). congruence.
    + repeat split; intros; congruence.
  - destruct (neqb tv v) eqn:E; simpl; split; intros H; try congruence.
    + repeat split; intros; congruence.
    + destruct H as [_ [_ [H _]]]. specialize (H eq_refl). congruence.
  - destruct (nlt v tv) eqn:E; simpl; split; intros H; try congruence.
    + destruct H as [_ [_ [_ [H _]]]]. specialize (H eq_refl). congruence.
    + repeat split; intros; congruence.
  - destruct (nle v tv) eqn:E; simpl; split; intros H; try congruence.
    + destruct H as [_ [_ [_ [_ H]]]]. specialize (H eq_refl). congruence.
    + repeat split; intros; congruence.
  - split; intros; [|reflexivity]. repeat split; intros; congruence.
Qed.

Lemma crits_good_spec b i ks :
  wf_boundary b -> 0 <= i < b_records b ->
  (forall c, In c ks -> exists l, getattr b (fst c) = Some (AArr l)) ->
  exists g, crits_good b i ks = Ok g /\
    (g = true <-> forall c, In c ks -> passes b i c).
Proof.
  intros WF Hi. induction ks as [|[k [op v]] t IH]; intros Hk.
  - exists true. split; [reflexivity|]. split; [intros _ c []|reflexivity].
  - simpl. destruct (Hk (k, (op, v)) (or_introl eq_refl)) as [l Hl]. simpl in Hl.
    rewrite Hl.
    destruct (getE_in l i) as [tv [E1 E2]].
    { destruct WF as [_ [_ [_ W]]]. rewrite (W k l Hl). exact Hi. }
    rewrite E1. simpl.
    destruct (crit_rejects op tv v) eqn:R.
    + exists false. split; [reflexivity|]. split; [discriminate|].
      intros H. specialize (H (k, (op, v)) (or_introl eq_refl) l tv Hl E2).
      simpl in H. apply crit_rejects_spec in H. congruence.
    + destruct IH as [g [G1 G2]]; [intros c Hc; apply Hk; now right|].
      exists g. split; [exact G1|]. rewrite G2. split.
      * intros H c [<-|Hc]; [|now apply H].
        intros l' tv' Hl' E2'. simpl in *. rewrite Hl in Hl'. injection Hl' as <-.
        rewrite E2 in E2'. injection E2' as <-. now apply crit_rejects_spec.
      * intros H c Hc. apply H. now right.
Qed.

Lemma known_crits_arr b ks c :
  wf_crits b ks -> In c (known_crits b ks) ->
  exists l, getattr b (fst c) = Some (AArr l).
Proof.
  intros W H. apply filter_In in H. destruct H as [H1 H2].
  specialize (W c H1). destruct (getattr b (fst c)) as [[l|]|]; eauto; congruence.
Qed.

Lemma known_crits_passes b ks i :
  (forall c, In c (known_crits b ks) -> passes b i c) <->
  (forall c, In c ks -> passes b i c).
Proof.
  split; intros H c Hc.
  - destruct (getattr b (fst c)) as [a|] eqn:E.
    + apply H. apply filter_In. split; [exact Hc|]. now rewrite E.
    + intros l tv Hl. congruence.
  - apply H. now apply filter_In in Hc.
Qed.

(** ** Scanning *)
Lemma scan_spec b mn mx ks fuel i :
  wf_boundary b -> wf_crits b ks -> 0 <= i ->
  (Z.to_nat (b_records b - i) <= fuel)%nat ->
  exists j, scan fuel b (merit_lo b mn) (merit_hi b mx) (known_crits b ks) i = Ok j /\
    next_good (good_record b mn mx ks) (b_records b) (i - 1) j.
Proof.
  intros WF WC. revert i. induction fuel as [|f IH]; intros i Hi Hf.
  - simpl. destruct (i <? b_records b) eqn:E; zify_bool; [lia|].
    exists i. split; [reflexivity|]. right. split; [lia|]. intros; lia.
  - simpl. destruct (i <? b_records b) eqn:E; zify_bool.
    2:{ exists i. split; [reflexivity|]. right. split; [lia|]. intros; lia. }
    destruct (crits_good_spec b i (known_crits b ks)) as [g [G1 G2]];
      [assumption|lia|intros c Hc; now apply (known_crits_arr b ks)|].
    rewrite known_crits_passes in G2. rewrite G1. simpl.
    destruct (getE_in (b_fom b) i) as [tv [F1 F2]].
    { destruct WF as [_ [_ [W _]]]. rewrite W. lia. }
    destruct (IH (i + 1)) as [j [J1 J2]]; [lia|lia|].
    assert (Hnext : ~ good_record b mn mx ks i ->
       next_good (good_record b mn mx ks) (b_records b) (i - 1) j).
    { intros NG. replace (i + 1 - 1) with i in J2 by lia.
      destruct J2 as [[A [B C]]|[A B]].
      - left. split; [lia|]. split; [exact B|]. intros k Hk.
        destruct (Z.eq_dec k i) as [->|]; [exact NG|]. apply C. lia.
      - right. split; [lia|]. intros k Hk.
        destruct (Z.eq_dec k i) as [->|]; [exact NG|]. apply B. lia. }
    destruct g.
    + rewrite F1. simpl.
      destruct (nle (merit_lo b mn) tv && nle tv (merit_hi b mx)) eqn:M.
      * exists i. split; [reflexivity|]. left. split; [lia|].
        apply andb_true_iff in M. destruct M as [M1 M2].
        split; [|intros; lia].
        split; [lia|]. split; [now apply G2|]. exists tv. auto.
      * exists j. split; [exact J1|]. apply Hnext.
        intros [_ [_ [f0 [Q1 [Q2 Q3]]]]]. rewrite F2 in Q1. injection Q1 as <-.
        rewrite Q2, Q3 in M. discriminate.
    + exists j. split; [exact J1|]. apply Hnext.
      intros [_ [Q _]]. apply G2 in Q. discriminate.
Qed.

Lemma next_rec_spec b mn mx ks i :
  wf_boundary b -> wf_crits b ks -> -1 <= i ->
  exists j, next_rec b mn mx ks i = Ok j /\
    next_good (good_record b mn mx ks) (b_records b) i j.
Proof.
  intros WF WC Hi. unfold next_rec.
  fold (merit_lo b mn) (merit_hi b mx).
  destruct (scan_spec b mn mx ks (Z.to_nat (b_records b - (i + 1))) (i + 1))
    as [j [J1 J2]]; try assumption; try lia.
  exists j. split; [exact J1|]. now replace (i + 1 - 1) with i in J2 by lia.
Qed.

Lemma get_next_spec b mn mx ks :
  wf_boundary b -> wf_crits b ks -> -1 <= b_rec_ind b ->
  exists b', get_next_good_ocb_ind b mn mx ks = Ok b' /\
    same_data b b' /\
    next_good (good_record b mn mx ks) (b_records b) (b_rec_ind b) (b_rec_ind b').
Proof.
  intros WF WC Hi. destruct (next_rec_spec b mn mx ks _ WF WC Hi) as [j [J1 J2]].
  exists (set_rec_ind b j). unfold get_next_good_ocb_ind. rewrite J1. simpl.
  split; [reflexivity|]. split; [repeat split|exact J2].
Qed.

Lemma next_good_unique G N i j j' :
  next_good G N i j -> next_good G N i j' -> j = j'.
Proof.
  intros [[A1 [A2 A3]]|[A1 A2]] [[B1 [B2 B3]]|[B1 B2]].
  - destruct (Z.lt_trichotomy j j') as [H|[H|H]]; [|exact H|]; exfalso.
    + apply (B3 j); [lia|exact A2].
    + apply (A3 j'); [lia|exact B2].
  - exfalso. apply (B2 j); [lia|exact A2].
  - exfalso. apply (A2 j'); [lia|exact B2].
  - lia.
Qed.

Lemma next_good_gt G N i j : next_good G N i j -> i < j.
Proof. intros [[A _]|[A _]]; lia. Qed.

(** ** retrieve_all_good_indices *)
Lemma good_record_set b i mn mx ks k :
  good_record (set_rec_ind b i) mn mx ks k <-> good_record b mn mx ks k.
Proof. reflexivity. Qed.

Lemma wf_set b i : wf_boundary b -> wf_boundary (set_rec_ind b i).
Proof. intros H. exact H. Qed.

Lemma retrieve_loop_spec mn mx ks fuel b acc :
  wf_boundary b -> wf_crits b ks -> -1 <= b_rec_ind b ->
  (Z.to_nat (b_records b - b_rec_ind b) <= fuel)%nat ->
  exists l, retrieve_loop fuel b mn mx ks acc = Ok (acc ++ l) /\
    StronglySorted Z.lt l /\
    forall k, In k l <-> (b_rec_ind b < k /\ good_record b mn mx ks k).
Proof.
  revert b acc. induction fuel as [|f IH]; intros b acc WF WC Hr Hf.
  - simpl. destruct (b_rec_ind b <? b_records b) eqn:E; zify_bool; [lia|].
    exists []. rewrite app_nil_r. split; [reflexivity|]. split; [constructor|].
    intros k. split; [intros []|]. intros [H1 [H2 _]]. lia.
  - simpl. destruct (b_rec_ind b <? b_records b) eqn:E; zify_bool.
    2:{ exists []. rewrite app_nil_r. split; [reflexivity|]. split; [constructor|].
        intros k. split; [intros []|]. intros [H1 [H2 _]]. lia. }
    destruct (next_rec_spec b mn mx ks _ WF WC Hr) as [j [J1 J2]].
    unfold get_next_good_ocb_ind. rewrite J1. simpl.
    pose proof (next_good_gt _ _ _ _ J2) as Hlt.
    destruct (IH (set_rec_ind b j) (if j <? b_records b then acc ++ [j] else acc))
      as [l [L1 [L2 L3]]]; try assumption; simpl in *; try lia.
    simpl in *.
    destruct (j <? b_records b) eqn:Ej; zify_bool.
    + exists (j :: l). rewrite L1, <- app_assoc. split; [reflexivity|].
      destruct J2 as [[A [B C]]|[A B]]; [|lia].
      split.
      * constructor; [exact L2|]. apply Forall_forall. intros x Hx.
        apply L3 in Hx. lia.
      * intros k. split.
        -- intros [<-|Hk]; [split; [lia|exact B]|].
           apply L3 in Hk. destruct Hk as [K1 K2]. split; [lia|exact K2].
        -- intros [K1 K2]. destruct (Z.lt_trichotomy k j) as [H|[H|H]].
           ++ exfalso. apply (C k); [lia|exact K2].
           ++ left. now symmetry.
           ++ right. apply L3. split; [lia|exact K2].
    + exists l. split; [exact L1|]. split; [exact L2|].
      intros k. rewrite L3. split.
      * intros [K1 [K2 _]]. simpl in K2. lia.
      * intros [K1 K2]. exfalso. destruct J2 as [[A _]|[A B]]; [lia|].
        apply (B k); [|exact K2]. destruct K2 as [K2 _]. lia.
Qed.

Lemma set_rec_ind_same b : set_rec_ind b (b_rec_ind b) = b.
Proof. now destruct b. Qed.

Lemma retrieve_spec b mn mx ks :
  wf_boundary b -> wf_crits b ks ->
  exists l, retrieve_all_good_indices b mn mx ks = Ok (l, b) /\
    StronglySorted Z.lt l /\
    forall k, In k l <-> good_record b mn mx ks k.
Proof.
  intros WF WC. unfold retrieve_all_good_indices.
  destruct (retrieve_loop_spec mn mx ks (S (S (Z.to_nat (b_records b))))
              (set_rec_ind b (-1)) []) as [l [L1 [L2 L3]]];
    try assumption; cbn [b_rec_ind b_records set_rec_ind].
  { lia. }
  { destruct WF as [W _]. lia. }
  exists l. rewrite L1. cbn [bind app]. rewrite set_rec_ind_same. split; [reflexivity|].
  split; [exact L2|]. intros k. rewrite L3. simpl.
  split; [tauto|]. intros H. split; [destruct H as [H _]; lia|exact H].
Qed.

(** A sorted list is determined by its elements. *)
Lemma sorted_unique (l l' : list Z) :
  StronglySorted Z.lt l -> StronglySorted Z.lt l' ->
  (forall k, In k l <-> In k l') -> l = l'.
Proof.
  revert l'. induction l as [|a l IH]; intros l' S1 S2 H.
  - destruct l' as [|b l']; [reflexivity|]. exfalso. apply (H b). now left.
  - destruct l' as [|b l']; [exfalso; apply (H a); now left|].
    inversion S1 as [|? ? S1' F1]; subst. inversion S2 as [|? ? S2' F2]; subst.
    rewrite Forall_forall in F1, F2.
    assert (a = b) as <-.
    { destruct (proj1 (H a) (or_introl eq_refl)) as [E|E]; [now symmetry|].
      destruct (proj2 (H b) (or_introl eq_refl)) as [E'|E']; [exact E'|].
      specialize (F1 _ E'). specialize (F2 _ E). lia. }
    f_equal. apply IH; [assumption|assumption|]. intros k. split; intros Hk.
    + destruct (proj1 (H k) (or_intror Hk)) as [<-|E]; [|exact E].
      specialize (F1 _ Hk). lia.
    + destruct (proj2 (H k) (or_intror Hk)) as [<-|E]; [|exact E].
      specialize (F2 _ Hk). lia.
Qed.

(** ** match_data_ocb *)
Section MatchProofs.
  Variable records : Z.
  Variable dtime : list Z.
  Variable cycle : Z -> res Z.
  Variable dat : list Z.
  Variable tol : Z.
  Variable G : Z -> Prop.
  Hypothesis Hrec : zlen dtime = records.
  Hypothesis Hcycle : forall i, -1 <= i < Z.max records 0 -> exists j, cycle i = Ok j /\ next_good G records i j.
  Hypothesis HG : forall k, G k -> 0 <= k < records.

  Notation t_ := (tm dtime).
  Notation d_ := (tm dat).
  Notation cand := (candidate G records).

  Lemma skip_early_spec fuel idat first :
    0 <= idat < zlen dat -> (Z.to_nat (zlen dat - idat) < fuel)%nat ->
    (exists i, skip_early dat fuel idat first = Ok (Some i) /\ idat <= i < zlen dat /\
       first <= d_ i /\ forall i', idat <= i' < i -> d_ i' < first) \/
    (skip_early dat fuel idat first = Ok None /\
       forall i', idat <= i' < zlen dat -> d_ i' < first).
  Proof.
    revert idat. induction fuel as [|f IH]; intros idat Hi Hf; [lia|].
    simpl. rewrite getE_tm by exact Hi. simpl.
    destruct (d_ idat <? first) eqn:E; zify_bool.
    - destruct (zlen dat <=? idat + 1) eqn:E2; zify_bool.
      + right. split; [reflexivity|]. intros i' Hi'. replace i' with idat by lia. exact E.
      + destruct (IH (idat + 1)) as [[i [A [B [C D]]]]|[A B]]; [lia|lia| |].
        * left. exists i. split; [exact A|]. split; [lia|]. split; [exact C|].
          intros i' Hi'. destruct (Z.eq_dec i' idat) as [->|]; [exact E|]. apply D; lia.
        * right. split; [exact A|]. intros i' Hi'.
          destruct (Z.eq_dec i' idat) as [->|]; [exact E|]. apply B; lia.
    - left. exists idat. repeat split; try lia.
  Qed.

  (** The descent ends on a candidate not farther than the start. *)
  Lemma descend_spec fuel d rec sdiff lastd lastr :
    0 <= lastr < rec -> rec < records -> G rec ->
    sdiff = t_ rec - d -> lastd = t_ lastr - d ->
    (forall k, lastr < k < rec -> ~ G k) ->
    (Z.to_nat (records - rec) < fuel)%nat ->
    exists r, descend records dtime cycle fuel d rec sdiff lastd lastr = Ok r /\
      lastr <= r < records /\ (r = lastr \/ G r) /\
      Z.abs (t_ r - d) <= Z.abs lastd /\
      (r <> lastr -> Z.abs (t_ r - d) < Z.abs lastd) /\
      (strictly_time_sorted dtime ->
        forall k, (k = lastr \/ (lastr < k /\ G k)) ->
          Z.abs (t_ r - d) <= Z.abs (t_ k - d) /\
          (k < r -> Z.abs (t_ r - d) < Z.abs (t_ k - d))).
  Proof.
    revert rec sdiff lastd lastr.
    induction fuel as [|f IH]; intros rec sdiff lastd lastr Hr Hrr HGr Es El Hgap Hf; [lia|].
    cbn [descend]. destruct (Z.abs sdiff <? Z.abs lastd) eqn:E; zify_bool.
    - destruct (Hcycle rec ltac:(lia)) as [j [J1 J2]].
      rewrite J1. cbn [bind].
      pose proof (next_good_gt _ _ _ _ J2) as Hj.
      destruct (j <? records) eqn:Ej; zify_bool.
      + rewrite getE_tm by lia. cbn [bind].
        destruct J2 as [[A [B C]]|[A B]]; [|lia].
        destruct (IH j (t_ j - d) sdiff rec) as [r [R1 [R2 [R3 [R4 [R5 R6]]]]]];
          try assumption; try lia; try reflexivity.
        exists r. split; [exact R1|]. split; [lia|].
        split; [destruct R3 as [->|R3]; right; assumption|].
        split; [lia|]. split; [intros; lia|].
        intros SS k Hk. specialize (R6 SS).
        destruct Hk as [->|[K1 K2]].
        * subst lastd. split; [lia|]. intros _. lia.
        * destruct (Z.lt_trichotomy k rec) as [H|[H|H]].
          -- exfalso. apply (Hgap k); [lia|exact K2].
          -- apply R6. left. exact H.
          -- apply R6. right. split; [lia|exact K2].
      + (* no further record: one more test, equal distances *)
        destruct f as [|f']; [lia|]. cbn [descend].
        rewrite (proj2 (Z.ltb_ge (Z.abs sdiff) (Z.abs sdiff))) by lia.
        exists rec. split; [reflexivity|]. split; [lia|]. split; [now right|].
        subst sdiff. split; [lia|]. split; [intros; lia|].
        intros SS k Hk. destruct Hk as [->|[K1 K2]].
        * subst lastd. split; [lia|]. intros; lia.
        * destruct (Z.lt_trichotomy k rec) as [H|[H|H]].
          -- exfalso. apply (Hgap k); [lia|exact K2].
          -- subst k. split; [lia|]. intros; lia.
          -- exfalso. destruct J2 as [[A _]|[A B]]; [lia|].
             apply (B k); [|exact K2]. apply HG in K2. lia.
    - exists lastr. split; [reflexivity|]. split; [lia|]. split; [now left|].
      split; [lia|]. split; [intros H; now contradiction H|].
      intros SS k Hk. destruct Hk as [->|[K1 K2]].
      + split; [lia|]. intros; lia.
      + split; [|intros; lia].
        assert (rec <= k).
        { destruct (Z_lt_ge_dec k rec) as [H|H]; [|lia].
          exfalso. apply (Hgap k); [lia|exact K2]. }
        assert (t_ lastr < t_ rec) by (apply SS; lia).
        assert (t_ rec <= t_ k).
        { destruct (Z.eq_dec rec k) as [->|]; [lia|].
          pose proof (SS rec k ltac:(lia) ltac:(apply HG in K2; lia)). lia. }
        subst. lia.
  Qed.

  (** Outcome of a search from cursor [rec0] and data index [idat0]. *)
  Definition outcome (rec0 idat0 : Z) (o : option Z) (r : Z) : Prop :=
    (exists i, o = Some i /\ idat0 <= i < zlen dat /\ cand rec0 r /\
       rec0 <= r /\ within dtime dat tol r i) \/
    (rec0 <= r /\ (o = None \/ exists i, o = Some i /\ idat0 <= i /\
                     (zlen dat <= i \/ records <= r))).

  Definition nothing_left (rec0 idat0 : Z) : Prop :=
    forall i k, idat0 <= i < zlen dat -> cand rec0 k -> ~ within dtime dat tol k i.

  Lemma main_loop_spec fuel rec0 idat0 rec idat last :
    0 <= rec0 -> 0 <= idat0 ->
    rec0 <= rec -> idat0 <= idat ->
    (rec < records -> cand rec0 rec) ->
    (last = None -> idat < zlen dat /\ rec < records) ->
    (Z.to_nat (records - rec) + Z.to_nat (zlen dat - idat) < fuel)%nat ->
    exists o r, main_loop records dtime cycle dat tol fuel rec idat last = Ok (o, r) /\
      outcome rec0 idat0 o r /\
      (time_sorted dtime -> time_sorted dat ->
       (idat < zlen dat -> forall k, cand rec0 k -> k < rec -> t_ k < d_ idat - tol) ->
       (forall i k, idat0 <= i < idat -> i < zlen dat -> cand rec0 k -> ~ within dtime dat tol k i) ->
       ((exists i, o = Some i /\ i < zlen dat /\ r < records /\
          (forall i' k, idat0 <= i' < i -> cand rec0 k -> ~ within dtime dat tol k i') /\
          (strictly_time_sorted dtime -> closest dtime dat (cand rec0) i r)) \/
        ((o = None \/ records <= r \/ exists i, o = Some i /\ zlen dat <= i) /\
         nothing_left rec0 idat0))).
  Proof.
    intros Hrec0 Hidat0. revert rec idat last.
    induction fuel as [|f IH]; intros rec idat last Hr Hi Hc Hlast Hf; [lia|].
    cbn [main_loop].
    destruct ((idat <? zlen dat) && (rec <? records)) eqn:E.
    - apply andb_true_iff in E. destruct E as [E1 E2]. zify_bool.
      rewrite !getE_tm by lia. cbn [bind].
      destruct (t_ rec - d_ idat <? - tol) eqn:Es; zify_bool.
      + destruct (Hcycle rec ltac:(lia)) as [j [J1 J2]]. rewrite J1. cbn [bind].
        pose proof (next_good_gt _ _ _ _ J2) as Hj.
        destruct (IH j idat (Some (t_ rec - d_ idat))) as [o [r [R1 [R2 R3]]]];
          try lia; try discriminate.
        { intros Hjr. destruct J2 as [[A [B _]]|[A _]]; [|lia].
          split; [lia|]. right. split; [lia|exact B]. }
        exists o, r. split; [exact R1|]. split; [exact R2|].
        intros S1 S2 I1 I2. apply R3; try assumption.
        intros Hd k Hk Hkj. destruct (Z.lt_trichotomy k rec) as [H|[H|H]].
        * now apply I1.
        * subst k. lia.
        * exfalso. destruct Hk as [K1 [K2|[K2 K3]]]; [lia|].
          destruct J2 as [[_ [_ C]]|[_ C]]; apply (C k); try assumption; lia.
      + destruct (tol <? t_ rec - d_ idat) eqn:Es2; zify_bool.
        * destruct (IH rec (idat + 1) (Some (t_ rec - d_ idat))) as [o [r [R1 [R2 R3]]]];
            try assumption; try lia; try discriminate.
          exists o, r. split; [exact R1|]. split; [exact R2|].
          intros S1 S2 I1 I2. apply R3; try assumption.
          -- intros Hd k Hk Hkr. specialize (I1 E1 k Hk Hkr).
             pose proof (S2 idat (idat + 1) ltac:(lia) Hd). lia.
          -- intros i k Hi' Hil Hk. destruct (Z.eq_dec i idat) as [->|].
             2:{ apply I2; [lia|lia|exact Hk]. }
             unfold within. destruct (Z_lt_ge_dec k rec) as [H|H].
             ++ specialize (I1 E1 k Hk H). lia.
             ++ assert (t_ rec <= t_ k) by (apply S1; destruct Hk; lia). lia.
        * destruct (Hcycle rec ltac:(lia)) as [j [J1 J2]]. rewrite J1. cbn [bind].
          pose proof (next_good_gt _ _ _ _ J2) as Hj.
          assert (Hopt : forall r,
             rec <= r < records -> (r = rec \/ G r) ->
             Z.abs (t_ r - d_ idat) <= Z.abs (t_ rec - d_ idat) ->
             (strictly_time_sorted dtime -> forall k, (k = rec \/ (rec < k /\ G k)) ->
                Z.abs (t_ r - d_ idat) <= Z.abs (t_ k - d_ idat) /\
                (k < r -> Z.abs (t_ r - d_ idat) < Z.abs (t_ k - d_ idat))) ->
             outcome rec0 idat0 (Some idat) r /\
             (time_sorted dtime -> time_sorted dat ->
              (idat < zlen dat -> forall k, cand rec0 k -> k < rec -> t_ k < d_ idat - tol) ->
              (forall i k, idat0 <= i < idat -> i < zlen dat -> cand rec0 k -> ~ within dtime dat tol k i) ->
              ((exists i, Some idat = Some i /\ i < zlen dat /\ r < records /\
                 (forall i' k, idat0 <= i' < i -> cand rec0 k -> ~ within dtime dat tol k i') /\
                 (strictly_time_sorted dtime -> closest dtime dat (cand rec0) i r)) \/
               ((Some idat = None \/ records <= r \/ exists i, Some idat = Some i /\ zlen dat <= i) /\
                nothing_left rec0 idat0)))).
          { intros r Rr RG Rd Ropt.
            assert (Cr : cand rec0 r).
            { destruct RG as [->|RG]; [now apply Hc|].
              split; [now apply HG|]. destruct (Z.eq_dec r rec0); [now left|].
              right. split; [lia|exact RG]. }
            split.
            - left. exists idat. split; [reflexivity|]. split; [lia|].
              split; [exact Cr|]. split; [lia|]. unfold within. lia.
            - intros S1 S2 I1 I2. left. exists idat. split; [reflexivity|].
              split; [lia|]. split; [lia|]. split.
              { intros i' k Hi' Hk. apply I2; [lia|lia|exact Hk]. }
              intros SS. split; [exact Cr|]. intros k Hk.
              destruct (Z_lt_ge_dec k rec) as [H|H].
              + specialize (I1 E1 k Hk H). lia.
              + apply (Ropt SS). destruct (Z.eq_dec k rec); [now left|].
                right. split; [lia|]. destruct Hk as [_ [Hk|[_ Hk]]]; [lia|exact Hk]. }
          destruct (j <? records) eqn:Ej; zify_bool.
          -- rewrite getE_tm by lia. cbn [bind].
             destruct J2 as [[A [B C]]|[A B]]; [|lia].
             destruct (descend_spec (S (Z.to_nat (records - j))) (d_ idat) j
                         (t_ j - d_ idat) (t_ rec - d_ idat) rec)
               as [r [R1 [R2 [R3 [R4 [_ R6]]]]]];
               try assumption; try lia; try reflexivity.
             rewrite R1. cbn [bind]. exists (Some idat), r. split; [reflexivity|].
             apply Hopt; try assumption; lia.
          -- exists (Some idat), rec. split; [reflexivity|].
             apply Hopt; [lia|now left|lia|].
             intros SS k [->|[K1 K2]]; [split; [lia|intros; lia]|].
             exfalso. destruct J2 as [[A _]|[A B]]; [lia|].
             apply (B k); [|exact K2]. apply HG in K2. lia.
    - (* loop exit *)
      assert (E' : zlen dat <= idat \/ records <= rec).
      { apply andb_false_iff in E. destruct E as [E|E]; zify_bool; [now left|now right]. }
      assert (Hnl : time_sorted dtime -> time_sorted dat ->
              (idat < zlen dat -> forall k, cand rec0 k -> k < rec -> t_ k < d_ idat - tol) ->
              (forall i k, idat0 <= i < idat -> i < zlen dat -> cand rec0 k -> ~ within dtime dat tol k i) ->
              nothing_left rec0 idat0).
      { intros S1 S2 I1 I2 i k Hi' Hk.
        destruct (Z_lt_ge_dec i idat) as [H|H]; [apply I2; [lia|lia|exact Hk]|].
        destruct E' as [E'|E']; [lia|].
        specialize (I1 ltac:(lia) k Hk ltac:(destruct Hk; lia)).
        pose proof (S2 idat i ltac:(lia) ltac:(lia)). unfold within. lia. }
      assert (Hsome : outcome rec0 idat0 (Some idat) rec).
      { right. split; [lia|]. right. exists idat. repeat split; lia || assumption. }
      destruct (idat =? 0) eqn:E0; zify_bool.
      + destruct last as [s|]; [|destruct (Hlast eq_refl); lia].
        destruct (tol <? Z.abs s) eqn:Es; zify_bool.
        * exists None, rec. split; [reflexivity|]. split.
          { right. split; [lia|]. now left. }
          intros S1 S2 I1 I2. right. split; [now left|]. now apply Hnl.
        * exists (Some idat), rec. split; [reflexivity|]. split; [exact Hsome|].
          intros S1 S2 I1 I2. right. split; [|now apply Hnl].
          right. destruct E' as [E'|E']; [right; eauto|now left].
      + exists (Some idat), rec. split; [reflexivity|]. split; [exact Hsome|].
        intros S1 S2 I1 I2. right. split; [|now apply Hnl].
        right. destruct E' as [E'|E']; [right; eauto|now left].
  Qed.

  (** What a search promises on sorted inputs. *)
  Definition sorted_outcome (rec0 idat0 : Z) (o : option Z) (r : Z) : Prop :=
    (exists i, o = Some i /\ i < zlen dat /\ r < records /\
       (forall i' k, idat0 <= i' < i -> cand rec0 k -> ~ within dtime dat tol k i') /\
       (strictly_time_sorted dtime -> closest dtime dat (cand rec0) i r)) \/
    ((o = None \/ records <= r \/ exists i, o = Some i /\ zlen dat <= i) /\
     nothing_left rec0 idat0).

  Lemma match_from_spec rec idat :
    0 <= tol -> 0 <= rec < records -> 0 <= idat < zlen dat ->
    exists o r, match_from records dtime cycle dat tol rec idat = Ok (o, r) /\
      outcome rec idat o r /\
      (time_sorted dtime -> time_sorted dat -> sorted_outcome rec idat o r).
  Proof.
    intros Htol Hr Hi. unfold match_from. rewrite !getE_tm by lia. cbn [bind].
    assert (Hc : cand rec rec) by (split; [lia|now left]).
    destruct (t_ rec =? d_ idat) eqn:E; zify_bool.
    - exists (Some idat), rec. split; [reflexivity|]. split.
      + left. exists idat. split; [reflexivity|]. split; [lia|]. split; [exact Hc|].
        split; [lia|]. unfold within. lia.
      + intros S1 S2. left. exists idat. split; [reflexivity|]. split; [lia|].
        split; [lia|]. split; [intros; lia|]. intros SS. split; [exact Hc|].
        intros k Hk. split; [lia|]. intros Hlt. destruct Hk as [_ [Hk|[Hk _]]]; lia.
    - destruct (main_loop_spec
        (S (Z.to_nat (records - rec) + Z.to_nat (zlen dat - idat)))
        rec idat rec idat None) as [o [r [R1 [R2 R3]]]]; try lia; auto.
      exists o, r. split; [exact R1|]. split; [exact R2|].
      intros S1 S2. apply R3; try assumption.
      + intros _ k [_ [Hk|[Hk _]]]; lia.
      + intros i k H; lia.
  Qed.

  Lemma cand_first j k :
    next_good G records (-1) j -> j < records -> (cand (-1) k <-> cand j k).
  Proof.
    intros H Hj. destruct H as [[A [B C]]|[A B]]; [|lia]. split.
    - intros [K1 [K2|[K2 K3]]]; [lia|]. split; [exact K1|].
      destruct (Z.lt_trichotomy k j) as [L|[L|L]]; [|now left|now right].
      exfalso. apply (C k); [lia|exact K3].
    - intros [K1 [->|[K2 K3]]]; (split; [lia|right; split; [lia|assumption]]).
  Qed.

  Lemma match_core_spec rec idat :
    0 <= tol -> -1 <= rec -> (rec < records \/ rec = -1) -> 0 <= idat < zlen dat ->
    exists o r, match_core records dtime cycle dat tol rec idat = Ok (o, r) /\
      outcome rec idat o r /\
      (time_sorted dtime -> time_sorted dat -> sorted_outcome rec idat o r).
  Proof.
    intros Htol Hr Hr2 Hi. unfold match_core.
    destruct (rec <? 0) eqn:E; zify_bool.
    2:{ apply match_from_spec; lia. }
    replace rec with (-1) by lia.
    destruct (Hcycle (-1) ltac:(lia)) as [j [J1 J2]]. rewrite J1. cbn [bind].
    pose proof (next_good_gt _ _ _ _ J2) as Hj.
    destruct (records <=? j) eqn:Ej; zify_bool.
    - exists (Some idat), j. split; [reflexivity|]. split.
      + right. split; [lia|]. right. exists idat. repeat split; lia.
      + intros _ _. right. split; [right; left; lia|].
        intros i k Hi' Hk. exfalso. destruct J2 as [[A _]|[A B]]; [lia|].
        destruct Hk as [K1 [K2|[K2 K3]]]; [lia|]. apply (B k); [lia|exact K3].
    - rewrite getE_tm by lia. cbn [bind].
      destruct (skip_early_spec (S (Z.to_nat (zlen dat - idat))) idat (t_ j - tol))
        as [[i1 [A [B [C D]]]]|[A B]]; [lia|lia| |].
      + rewrite A. cbn [bind].
        destruct (match_from_spec j i1) as [o [r [R1 [R2 R3]]]]; try lia.
        exists o, r. split; [exact R1|]. split.
        * destruct R2 as [[i [Q1 [Q2 [Q3 [Q4 Q5]]]]]|[Q1 Q2]].
          -- left. exists i. split; [exact Q1|]. split; [lia|].
             split; [now apply (cand_first j)|]. split; [lia|exact Q5].
          -- right. split; [lia|]. destruct Q2 as [Q2|[i [Q2 [Q3 Q4]]]]; [now left|].
             right. exists i. split; [exact Q2|]. split; [lia|exact Q4].
        * intros S1 S2.
          assert (Hskip : forall i' k, idat <= i' < i1 -> cand (-1) k -> ~ within dtime dat tol k i').
          { intros i' k Hi' Hk. apply (cand_first j) in Hk; try assumption.
            specialize (D i' Hi'). assert (t_ j <= t_ k).
            { apply S1; destruct Hk as [K1 [K2|[K2 _]]]; lia. }
            unfold within. lia. }
          destruct (R3 S1 S2) as [[i [Q1 [Q2 [Q3 [Q4 Q5]]]]]|[Q1 Q2]].
          -- left. exists i. split; [exact Q1|]. split; [exact Q2|].
             split; [exact Q3|]. split.
             ++ intros i' k Hi' Hk. destruct (Z_lt_ge_dec i' i1); [apply Hskip; [lia|exact Hk]|].
                apply Q4; [lia|]. now apply (cand_first j).
             ++ intros SS. destruct (Q5 SS) as [P1 P2]. split; [now apply (cand_first j)|].
                intros k Hk. apply P2. now apply (cand_first j).
          -- right. split; [exact Q1|]. intros i' k Hi' Hk.
             destruct (Z_lt_ge_dec i' i1); [apply Hskip; [lia|exact Hk]|].
             apply Q2; [lia|]. now apply (cand_first j).
      + rewrite A. cbn [bind]. exists None, j. split; [reflexivity|]. split.
        * right. split; [lia|]. now left.
        * intros S1 S2. right. split; [now left|].
          intros i' k Hi' Hk. apply (cand_first j) in Hk; try assumption.
          specialize (B i' Hi'). assert (t_ j <= t_ k).
          { apply S1; destruct Hk as [K1 [K2|[K2 _]]]; lia. }
          unfold within. lia.
  Qed.

  (** ** When Python's None is returned *)
  Definition none_case (rec idat : Z) : Prop :=
    (rec = -1 /\ exists j, next_good G records (-1) j /\ j < records /\
       forall i, idat <= i < zlen dat -> d_ i < t_ j - tol) \/
    (idat = 0 /\ (exists k, cand rec k) /\ forall k, cand rec k -> t_ k < d_ 0 - tol).

  Lemma main_loop_none fuel rec idat last o r :
    0 <= tol -> 0 <= rec -> 0 <= idat -> (rec < records \/ last <> None) ->
    (forall s, last = Some s -> records <= rec -> idat = 0 -> tol < Z.abs s) ->
    (last = None -> idat < zlen dat) -> 0 < zlen dat ->
    main_loop records dtime cycle dat tol fuel rec idat last = Ok (o, r) ->
    (o = None <-> (idat = 0 /\ forall k, cand rec k -> t_ k < d_ 0 - tol)).
  Proof.
    intros Htol. revert rec idat last.
    induction fuel as [|f IH]; intros rec idat last Hr Hi Hg Hl Hln Hn H.
    - cbn [main_loop] in H.
      destruct ((idat <? zlen dat) && (rec <? records)) eqn:E; [discriminate|].
      apply andb_false_iff in E.
      destruct (idat =? 0) eqn:E0; zify_bool.
      + destruct last as [s|]; [|discriminate].
        assert (records <= rec) by (destruct E as [E|E]; zify_bool; lia).
        specialize (Hl s eq_refl ltac:(lia) E0).
        rewrite (proj2 (Z.ltb_lt _ _) Hl) in H. injection H as <- <-.
        split; [|reflexivity]. intros _. split; [exact E0|]. intros k [K1 [K2|[K2 _]]]; lia.
      + injection H as <- <-. split; [discriminate|]. intros [HH0 _]. lia.
    - cbn [main_loop] in H.
      destruct ((idat <? zlen dat) && (rec <? records)) eqn:E.
      + zify_bool. rewrite !getE_tm in H by lia. cbn [bind] in H.
        assert (Hc : cand rec rec) by (split; [lia|now left]).
        destruct (t_ rec - d_ idat <? - tol) eqn:Es; zify_bool.
        * destruct (Hcycle rec ltac:(lia)) as [j [J1 J2]]. rewrite J1 in H. cbn [bind] in H.
          pose proof (next_good_gt _ _ _ _ J2) as Hj.
          assert (HIH : o = None <-> (idat = 0 /\ forall k, cand j k -> t_ k < d_ 0 - tol)).
          { apply (IH j idat (Some (t_ rec - d_ idat)));
              [lia|lia|right; discriminate| |discriminate|lia|exact H].
            intros s Hs _ _. injection Hs as <-. lia. }
          rewrite HIH.
          assert (Heq : forall k, cand rec k <-> k = rec \/ cand j k).
          { intros k. split.
            - intros [K1 [K2|[K2 K3]]]; [now left|]. right. split; [exact K1|].
              destruct J2 as [[A [B C]]|[A B]].
              + destruct (Z.lt_trichotomy k j) as [L|[L|L]]; [|now left|right; auto].
                exfalso. apply (C k); [lia|exact K3].
              + exfalso. apply (B k); [lia|exact K3].
            - intros [->|[K1 [->|[K2 K3]]]]; [exact Hc| |].
              + split; [exact K1|]. right. split; [lia|].
                destruct J2 as [[A [B C]]|[A B]]; [exact B|lia].
              + split; [exact K1|]. right. split; [lia|exact K3]. }
          split.
          -- intros [-> Hk]. split; [reflexivity|]. intros k Hk'. apply Heq in Hk'.
             destruct Hk' as [->|Hk']; [lia|now apply Hk].
          -- intros [-> Hk]. split; [reflexivity|]. intros k Hk'. apply Hk. apply Heq.
             now right.
        * destruct (tol <? t_ rec - d_ idat) eqn:Es2; zify_bool.
          -- assert (HIH : o = None <-> (idat + 1 = 0 /\ forall k, cand rec k -> t_ k < d_ 0 - tol)).
             { apply (IH rec (idat + 1) (Some (t_ rec - d_ idat)));
                 [lia|lia|right; discriminate| |discriminate|lia|exact H].
               intros s Hs HH _. lia. }
             rewrite HIH.
             split; [intros [HH0 _]; lia|]. intros [-> Hk]. specialize (Hk rec Hc). lia.
          -- destruct (Hcycle rec ltac:(lia)) as [j [J1 J2]]. rewrite J1 in H. cbn [bind] in H.
             pose proof (next_good_gt _ _ _ _ J2) as Hj.
             assert (o <> None).
             { destruct (j <? records) eqn:Ej; zify_bool.
               - rewrite getE_tm in H by lia. cbn [bind] in H.
                 destruct (descend _ _ _ _ _ _ _ _ _) in H; [|discriminate].
                 cbn [bind] in H. injection H as <- <-. discriminate.
               - injection H as <- <-. discriminate. }
             split; [intros; contradiction|]. intros [-> Hk]. specialize (Hk rec Hc). lia.
      + apply andb_false_iff in E.
        destruct (idat =? 0) eqn:E0; zify_bool.
        * destruct last as [s|]; [|discriminate].
          assert (records <= rec) by (destruct E as [E|E]; zify_bool; lia).
          specialize (Hl s eq_refl ltac:(lia) E0).
          rewrite (proj2 (Z.ltb_lt _ _) Hl) in H. injection H as <- <-.
          split; [|reflexivity]. intros _. split; [exact E0|]. intros k [K1 [K2|[K2 _]]]; lia.
        * injection H as <- <-. split; [discriminate|]. intros [HH0 _]. lia.
  Qed.

  Lemma match_core_none rec idat o r :
    0 <= tol -> -1 <= rec -> (rec < records \/ rec = -1) -> 0 <= idat < zlen dat ->
    match_core records dtime cycle dat tol rec idat = Ok (o, r) ->
    (o = None <-> none_case rec idat).
  Proof.
    intros Htol Hr Hr2 Hi.
    assert (Hfrom : forall rec idat, 0 <= rec < records -> 0 <= idat < zlen dat ->
      match_from records dtime cycle dat tol rec idat = Ok (o, r) ->
      (o = None <-> (idat = 0 /\ forall k, cand rec k -> t_ k < d_ 0 - tol))).
    { clear rec idat Hr Hr2 Hi. intros rec idat Hr Hi H. unfold match_from in H.
      rewrite !getE_tm in H by lia. cbn [bind] in H.
      destruct (t_ rec =? d_ idat) eqn:E; zify_bool.
      - injection H as <- <-. split; [discriminate|]. intros [-> Hk].
        specialize (Hk rec ltac:(split; [lia|now left])). lia.
      - eapply main_loop_none; [..|exact H]; try lia; try discriminate. }
    intros H. unfold match_core in H.
    destruct (rec <? 0) eqn:E; zify_bool.
    2:{ rewrite (Hfrom rec idat ltac:(lia) Hi H). unfold none_case. split.
        - intros [-> Hk]. right. split; [reflexivity|]. split; [|exact Hk].
          exists rec. split; [lia|now left].
        - intros [[K _]|[-> [_ Hk]]]; [lia|]. auto. }
    replace rec with (-1) in * by lia.
    destruct (Hcycle (-1) ltac:(lia)) as [j [J1 J2]]. rewrite J1 in H. cbn [bind] in H.
    pose proof (next_good_gt _ _ _ _ J2) as Hj.
    destruct (records <=? j) eqn:Ej; zify_bool.
    - injection H as <- <-. split; [discriminate|].
      intros [[_ [j' [A [B _]]]]|[_ [[k K] _]]]; exfalso.
      + rewrite (next_good_unique _ _ _ _ _ J2 A) in Ej. lia.
      + destruct J2 as [[A _]|[A B]]; [lia|].
        destruct K as [K1 [K2|[K2 K3]]]; [lia|]. apply (B k); [lia|exact K3].
    - rewrite getE_tm in H by lia. cbn [bind] in H.
      destruct (skip_early_spec (S (Z.to_nat (zlen dat - idat))) idat (t_ j - tol))
        as [[i1 [A [B [C D]]]]|[A B]]; [lia|lia| |]; rewrite A in H; cbn [bind] in H.
      + rewrite (Hfrom j i1 ltac:(lia) ltac:(lia) H). unfold none_case. split.
        * intros [-> Hk]. right. split; [lia|]. split.
          { exists j. apply (cand_first j); try assumption. split; [lia|now left]. }
          intros k Hk'. apply Hk. now apply (cand_first j).
        * intros [[_ [j' [A' [B' D']]]]|[-> [_ Hk]]].
          -- rewrite (next_good_unique _ _ _ _ _ J2 A') in C. specialize (D' i1 ltac:(lia)). lia.
          -- assert (i1 = 0) as ->.
             { destruct (Z.eq_dec i1 0); [assumption|]. specialize (D 0 ltac:(lia)).
               specialize (Hk j ltac:(apply (cand_first j); try assumption; split; [lia|now left])).
               lia. }
             split; [reflexivity|]. intros k Hk'. apply Hk. now apply (cand_first j).
      + injection H as <- <-. split; [|reflexivity]. intros _. left.
        split; [reflexivity|]. exists j. auto.
  Qed.
End MatchProofs.

Section MatchTotal.
  Variable records : Z.
  Variable dtime : list Z.
  Variable cycle : Z -> res Z.
  Variable dat : list Z.
  Variable tol : Z.
  Variable G : Z -> Prop.
  Hypothesis Hrec : zlen dtime = records.
  Hypothesis Hcycle : forall i, -1 <= i < Z.max records 0 -> exists j, cycle i = Ok j /\ next_good G records i j.
  Hypothesis HG : forall k, G k -> 0 <= k < records.

  Lemma match_core_total rec idat :
    -1 <= rec -> (rec < records \/ rec = -1) -> 0 <= idat < zlen dat ->
    exists o r, match_core records dtime cycle dat tol rec idat = Ok (o, r) /\ -1 <= r.
  Proof.
    intros Hr Hr2 Hi.
    assert (Hfrom : forall rec idat, 0 <= rec < records -> 0 <= idat < zlen dat ->
      exists o r, match_from records dtime cycle dat tol rec idat = Ok (o, r) /\ -1 <= r).
    { clear rec idat Hr Hr2 Hi. intros rec idat Hr Hi. unfold match_from.
      rewrite !getE_tm by lia. cbn [bind].
      destruct (tm dtime rec =? tm dat idat) eqn:E; [exists (Some idat), rec; split; [reflexivity|lia]|].
      destruct (main_loop_spec records dtime cycle dat tol G Hrec Hcycle HG
        (S (Z.to_nat (records - rec) + Z.to_nat (zlen dat - idat)))
        rec idat rec idat None) as [o [r [R1 [R2 R3]]]]; try lia; auto.
      { intros _. split; [lia|now left]. }
      exists o, r. split; [exact R1|].
      destruct R2 as [[i [_ [_ [_ [R2 _]]]]]|[R2 _]]; lia. }
    unfold match_core. destruct (rec <? 0) eqn:E; zify_bool; [|apply Hfrom; lia].
    destruct (Hcycle rec ltac:(lia)) as [j [J1 J2]]. rewrite J1. cbn [bind].
    pose proof (next_good_gt _ _ _ _ J2) as Hj.
    destruct (records <=? j) eqn:Ej; zify_bool; [exists (Some idat), j; split; [reflexivity|lia]|].
    rewrite getE_tm by lia. cbn [bind].
    destruct (skip_early_spec dat (S (Z.to_nat (zlen dat - idat))) idat (tm dtime j - tol))
      as [[i1 [A [B [C D]]]]|[A B]]; [lia|lia| |]; rewrite A; cbn [bind].
    - apply Hfrom; lia.
    - exists None, j. split; [reflexivity|lia].
  Qed.
End MatchTotal.

(** ** match_data_ocb on an OCBoundary or EABoundary *)
Lemma next_rec_cycle b mn mx ks :
  wf_boundary b -> wf_crits b ks ->
  forall i, -1 <= i -> exists j, next_rec b mn mx ks i = Ok j /\
    next_good (good_record b mn mx ks) (b_records b) i j.
Proof. intros. now apply next_rec_spec. Qed.

Lemma next_rec_cycle' b mn mx ks :
  wf_boundary b -> wf_crits b ks ->
  forall i, -1 <= i < Z.max (b_records b) 0 -> exists j, next_rec b mn mx ks i = Ok j /\
    next_good (good_record b mn mx ks) (b_records b) i j.
Proof. intros. apply next_rec_spec; try assumption; lia. Qed.

Lemma good_in b mn mx ks k : good_record b mn mx ks k -> 0 <= k < b_records b.
Proof. now intros [H _]. Qed.

Lemma same_data_refl b : same_data b b.
Proof. unfold same_data. auto 10. Qed.
Lemma same_data_set b i : same_data b (set_rec_ind b i).
Proof. unfold same_data. simpl. auto 10. Qed.

Lemma match_data_total b dat idat max_tol mn mx ks :
  wf_boundary b -> wf_crits b ks -> -1 <= b_rec_ind b -> 0 <= idat ->
  exists o b', match_data_ocb b dat idat max_tol mn mx ks = Ok (o, b') /\
    same_data b b' /\ -1 <= b_rec_ind b'.
Proof.
  intros W C Hr Hi. unfold match_data_ocb.
  destruct (zlen dat <=? idat) eqn:E1; zify_bool.
  { exists (Some idat), b. split; [reflexivity|]. split; [apply same_data_refl|lia]. }
  destruct (b_records b <=? b_rec_ind b) eqn:E2; zify_bool.
  { exists (Some idat), b. split; [reflexivity|]. split; [apply same_data_refl|lia]. }
  destruct (match_core_total (b_records b) (b_dtime b) (next_rec b mn mx ks) dat
    (max_tol * usec) (good_record b mn mx ks)
    ltac:(apply W) ltac:(now apply next_rec_cycle') (good_in b mn mx ks)
    (b_rec_ind b) idat)
    as [o [r [R1 R2]]]; try lia.
  rewrite R1. cbn [bind]. exists o, (set_rec_ind b r). split; [reflexivity|].
  split; [apply same_data_set|exact R2].
Qed.

Lemma match_data_spec b dat idat max_tol mn mx ks :
  wf_boundary b -> wf_crits b ks -> -1 <= b_rec_ind b < b_records b ->
  0 <= idat < zlen dat -> 0 <= max_tol ->
  exists o r, match_data_ocb b dat idat max_tol mn mx ks = Ok (o, set_rec_ind b r) /\
    outcome (b_records b) (b_dtime b) dat (max_tol * usec) (good_record b mn mx ks)
      (b_rec_ind b) idat o r /\
    (time_sorted (b_dtime b) -> time_sorted dat ->
     sorted_outcome (b_records b) (b_dtime b) dat (max_tol * usec)
       (good_record b mn mx ks) (b_rec_ind b) idat o r) /\
    (o = None <-> none_case (b_records b) (b_dtime b) dat (max_tol * usec)
       (good_record b mn mx ks) (b_rec_ind b) idat).
Proof.
  intros W C Hr Hi Ht. unfold match_data_ocb.
  rewrite (proj2 (Z.leb_gt _ _)) by lia. rewrite (proj2 (Z.leb_gt _ _)) by lia.
  assert (Htol : 0 <= max_tol * usec) by (unfold usec; lia).
  destruct (match_core_spec (b_records b) (b_dtime b) (next_rec b mn mx ks) dat
    (max_tol * usec) (good_record b mn mx ks)
    ltac:(apply W) ltac:(now apply next_rec_cycle') (good_in b mn mx ks)
    (b_rec_ind b) idat Htol)
    as [o [r [R1 [R2 R3]]]]; try lia.
  rewrite R1. cbn [bind]. exists o, r. split; [reflexivity|]. split; [exact R2|].
  split; [exact R3|].
  exact (match_core_none (b_records b) (b_dtime b) (next_rec b mn mx ks) dat
    (max_tol * usec) (good_record b mn mx ks)
    ltac:(apply W) ltac:(now apply next_rec_cycle')
    (b_rec_ind b) idat o r Htol ltac:(lia) ltac:(lia) ltac:(lia) R1).
Qed.

(** ** Criteria *)
Lemma satisfies_rejected op tv v : satisfies op tv v <-> ~ rejected op tv v.
Proof.
  unfold satisfies, rejected. split.
  - intros [A [B [C [D E]]]] [[-> H]|[[-> H]|[[-> H]|[[-> H]|[-> H]]]]];
      [rewrite A in H|rewrite B in H|rewrite C in H|rewrite D in H|rewrite E in H];
      congruence.
  - intros H.
    destruct (nle tv v) eqn:E1; destruct (nlt tv v) eqn:E2; destruct (neqb tv v) eqn:E3;
    destruct (nlt v tv) eqn:E4; destruct (nle v tv) eqn:E5;
    (split; [intros ->|split; [intros ->|split; [intros ->|split; intros ->]]]);
    try reflexivity; exfalso; apply H; auto 10.
Qed.

Lemma nle_fin a b : nle (Fin a) (Fin b) = true <-> (a <= b)%Q.
Proof. simpl. apply Qle_bool_iff. Qed.
Lemma nlt_fin a b : nlt (Fin a) (Fin b) = true <-> (a < b)%Q.
Proof.
  simpl. rewrite negb_true_iff. split; intros H.
  - destruct (Qlt_le_dec a b) as [L|L]; [exact L|].
    apply Qle_bool_iff in L. congruence.
  - destruct (Qle_bool b a) eqn:E; [|reflexivity]. apply Qle_bool_iff in E.
    exfalso. exact (Qlt_not_le _ _ H E).
Qed.
Lemma neqb_fin a b : neqb (Fin a) (Fin b) = true <-> (a == b)%Q.
Proof. simpl. apply Qeq_bool_iff. Qed.

Lemma next_rec_det b mn mx mn' mx' ks ks' i :
  wf_boundary b -> wf_crits b ks -> wf_crits b ks' -> -1 <= i ->
  (forall k, i < k < b_records b -> good_record b mn mx ks k <-> good_record b mn' mx' ks' k) ->
  next_rec b mn mx ks i = next_rec b mn' mx' ks' i.
Proof.
  intros W C C' Hi H.
  destruct (next_rec_cycle b mn mx ks W C i Hi) as [j [-> J2]].
  destruct (next_rec_cycle b mn' mx' ks' W C' i Hi) as [j' [-> J2']].
  f_equal.
  assert (J3 : next_good (good_record b mn' mx' ks') (b_records b) i j).
  { destruct J2 as [[A [B D]]|[A B]].
    - left. split; [exact A|]. split; [now apply H; [lia|]|].
      intros k Hk Hg. apply (D k Hk). apply H; [lia|exact Hg].
    - right. split; [exact A|]. intros k Hk Hg. apply (B k Hk). now apply H. }
  eapply next_good_unique; eassumption.
Qed.

Lemma next_rec_one b mn mx k op v l i tv :
  wf_boundary b -> 0 <= i < b_records b ->
  getattr b k = Some (AArr l) -> nth_error l (Z.to_nat i) = Some tv ->
  good_record b mn mx [] i ->
  (next_rec b mn mx [(k, (op, v))] (i - 1) = Ok i <-> ~ rejected op tv v).
Proof.
  intros W Hi Hk Htv Hg.
  assert (C : wf_crits b [(k, (op, v))]).
  { intros c [<-|[]]. simpl. rewrite Hk. discriminate. }
  destruct (next_rec_cycle b mn mx _ W C (i - 1) ltac:(lia)) as [j [-> J2]].
  assert (Hgood : good_record b mn mx [(k, (op, v))] i <-> ~ rejected op tv v).
  { rewrite <- satisfies_rejected. unfold good_record. split.
    - intros [_ [P _]]. exact (P _ (or_introl eq_refl) l tv Hk Htv).
    - intros S. destruct Hg as [_ [_ F]]. split; [exact Hi|]. split; [|exact F].
      intros c [<-|[]] l' tv' Hl' Ht'. simpl in *. rewrite Hk in Hl'.
      injection Hl' as <-. rewrite Htv in Ht'. injection Ht' as <-. exact S. }
  rewrite <- Hgood. split.
  - intros E. injection E as ->. destruct J2 as [[A [B D]]|[A B]]; [exact B|lia].
  - intros G. f_equal. destruct J2 as [[A [B D]]|[A B]].
    + destruct (Z.eq_dec j i) as [|Ne]; [assumption|]. exfalso. apply (D i); [lia|exact G].
    + exfalso. apply (B i); [lia|exact G].
Qed.
