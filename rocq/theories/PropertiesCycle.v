(** C01-C10: record cycling, matching and processing loops. *)
From Coq Require Import String ZArith QArith List Bool Lia Sorted Permutation.
From Verif Require Import PyBase CycleModel CycleSpec CycleProofs
  DriverModel DriverSpec DriverProofs.
Import ListNotations.
Open Scope string_scope.
Open Scope list_scope.
Open Scope Z_scope.

(** A small loaded boundary for the examples: five records one minute apart,
    figures of merit 2, 0, NaN, 5, 3 with limits [1, 4], and an attribute "r". *)
Definition ex_b (rec : Z) : boundary :=
  mkB 5 rec (map (fun m => m * 60 * usec) [0; 1; 2; 3; 4])
    [Fin 2; Fin 0; NaN; Fin 5; Fin 3] (Fin 1) (Fin 4)
    [("r", AArr [Fin 10; Fin 11; Fin 12; Fin 13; Fin 14]); ("hemisphere", AScalar)].

Lemma ex_b_wf rec : wf_boundary (ex_b rec).
Proof.
  split; [simpl; lia|]. split; [reflexivity|]. split; [reflexivity|].
  intros k l. unfold getattr, ex_b. simpl.
  destruct (String.eqb k "fom"); [intros H; injection H as <-; reflexivity|].
  destruct (String.eqb k "dtime"); [intros H; injection H as <-; reflexivity|].
  destruct (String.eqb k "r"); [intros H; injection H as <-; reflexivity|].
  destruct (String.eqb k "hemisphere"); discriminate.
Qed.

(** ** C01 *)
Theorem C01_next_good_record :
  forall b min_merit max_merit kwargs,
    wf_boundary b -> wf_crits b kwargs -> -1 <= b_rec_ind b ->
    exists b', get_next_good_ocb_ind b min_merit max_merit kwargs = Ok b' /\
      same_data b b' /\
      next_good (good_record b min_merit max_merit kwargs) (b_records b)
        (b_rec_ind b) (b_rec_ind b').
Proof. exact get_next_spec. Qed.

Example C01_case :
  get_next_good_ocb_ind (ex_b 0) None None [] = Ok (ex_b 4) /\
  get_next_good_ocb_ind (ex_b 0) None (Some PInf) [("r", ("max", Fin 14))] = Ok (ex_b 3) /\
  get_next_good_ocb_ind (ex_b 4) None None [] = Ok (ex_b 5).
Proof. repeat split; reflexivity. Qed.

(** ** C02 *)
Theorem C02_criterion_meaning :
  forall b min_merit max_merit key op limit values i value,
    wf_boundary b -> 0 <= i < b_records b ->
    getattr b key = Some (AArr values) ->
    nth_error values (Z.to_nat i) = Some value ->
    good_record b min_merit max_merit [] i ->
    (next_rec b min_merit max_merit [(key, (op, limit))] (i - 1) = Ok i
     <-> ~ rejected op value limit).
Proof. intros; now apply next_rec_one with (l := values). Qed.

Theorem C02_finite_comparisons :
  forall a b : Q,
    (nle (Fin a) (Fin b) = true <-> (a <= b)%Q) /\
    (nlt (Fin a) (Fin b) = true <-> (a < b)%Q) /\
    (neqb (Fin a) (Fin b) = true <-> (a == b)%Q).
Proof. intros a b. split; [apply nle_fin|]. split; [apply nlt_fin|apply neqb_fin]. Qed.

Theorem C02_order_irrelevant :
  forall b min_merit max_merit kwargs kwargs' rec,
    wf_boundary b -> wf_crits b kwargs -> -1 <= rec ->
    Permutation kwargs kwargs' ->
    next_rec b min_merit max_merit kwargs rec = next_rec b min_merit max_merit kwargs' rec.
Proof.
  intros b mn mx ks ks' rec W C Hr P. apply next_rec_det; try assumption.
  - intros c Hc. apply C. now apply (Permutation_in _ (Permutation_sym P)).
  - intros k Hk. unfold good_record. split; intros [A [B D]]; (split; [exact A|]);
      (split; [|exact D]); intros c Hc; apply B.
    + now apply (Permutation_in _ (Permutation_sym P)).
    + now apply (Permutation_in _ P).
Qed.

Theorem C02_unknown_never_rejects :
  forall b min_merit max_merit key op limit kwargs rec,
    wf_boundary b -> wf_crits b kwargs -> -1 <= rec ->
    getattr b key <> Some AScalar ->
    (getattr b key = None \/ ~ known_operator op) ->
    next_rec b min_merit max_merit ((key, (op, limit)) :: kwargs) rec
    = next_rec b min_merit max_merit kwargs rec.
Proof.
  intros b mn mx key op v ks rec W C Hr Hs Hu. apply next_rec_det; try assumption.
  - intros c [<-|Hc]; [exact Hs|now apply C].
  - intros k Hk. unfold good_record. split; intros [A [B D]]; (split; [exact A|]);
      (split; [|exact D]).
    + intros c Hc. apply B. now right.
    + intros c [<-|Hc]; [|now apply B]. intros l tv Hl Htv. cbn [fst snd] in *.
      destruct Hu as [Hu|Hu]; [congruence|]. apply satisfies_rejected.
      intros R. apply Hu. unfold known_operator.
      destruct R as [[-> _]|[[-> _]|[[-> _]|[[-> _]|[-> _]]]]]; simpl; tauto.
Qed.

Theorem C02_nan_merit_never_good :
  forall b min_merit max_merit kwargs i,
    nth_error (b_fom b) (Z.to_nat i) = Some NaN ->
    ~ good_record b min_merit max_merit kwargs i.
Proof.
  intros b mn mx ks i H [_ [_ [f [F1 [_ F2]]]]]. rewrite H in F1. injection F1 as <-.
  simpl in F2. discriminate.
Qed.

Theorem C02_nan_value_fails_only_equal :
  forall op limit, rejected op NaN limit <-> op = "equal".
Proof.
  intros op v. unfold rejected. split.
  - intros [[-> H]|[[-> H]|[[-> H]|[[-> H]|[-> H]]]]]; try reflexivity;
      simpl in H; try discriminate; destruct v; discriminate.
  - intros ->. right. right. left. split; [reflexivity|]. now destruct v.
Qed.

Example C02_case :
  next_rec (ex_b 0) (Some NInf) (Some PInf) [("r", ("min", Fin 13))] 2 = Ok 4 /\
  next_rec (ex_b 0) (Some NInf) (Some PInf) [("r", ("mineq", Fin 13))] 2 = Ok 3 /\
  next_rec (ex_b 0) None None [("nothing", ("min", Fin 99)); ("r", ("between", Fin 1))] (-1) = Ok 0.
Proof. repeat split; reflexivity. Qed.

(** ** C03 *)
Theorem C03_retrieve_all_good :
  forall b min_merit max_merit kwargs,
    wf_boundary b -> wf_crits b kwargs ->
    exists l, retrieve_all_good_indices b min_merit max_merit kwargs = Ok (l, b) /\
      StronglySorted Z.lt l /\
      forall i, In i l <-> good_record b min_merit max_merit kwargs i.
Proof. exact retrieve_spec. Qed.

Example C03_case : retrieve_all_good_indices (ex_b 2) None None [] = Ok ([0; 4], ex_b 2).
Proof. reflexivity. Qed.

(** ** C04 *)
Theorem C04_match_terminates :
  forall b dat idat max_tol min_merit max_merit kwargs,
    wf_boundary b -> wf_crits b kwargs -> -1 <= b_rec_ind b -> 0 <= idat ->
    exists o b', match_data_ocb b dat idat max_tol min_merit max_merit kwargs = Ok (o, b') /\
      same_data b b' /\ -1 <= b_rec_ind b'.
Proof. exact match_data_total. Qed.

(** Unsorted data and boundary times, negative tolerance. *)
Example C04_case :
  match_data_ocb (mkB 3 (-1) [7; 2; 9] [Fin 2; Fin 2; Fin 2] (Fin 1) (Fin 4) [])
    [5; 1; 8] 0 (-1) None None []
  = Ok (None, mkB 3 0 [7; 2; 9] [Fin 2; Fin 2; Fin 2] (Fin 1) (Fin 4) []).
Proof. reflexivity. Qed.

(** ** C05 *)
Theorem C05_match_is_real :
  forall b dat idat max_tol min_merit max_merit kwargs i b',
    wf_boundary b -> wf_crits b kwargs ->
    -1 <= b_rec_ind b -> 0 <= idat -> 0 <= max_tol ->
    match_data_ocb b dat idat max_tol min_merit max_merit kwargs = Ok (Some i, b') ->
    idat <= i /\ b_rec_ind b <= b_rec_ind b' /\
    (i < zlen dat -> b_rec_ind b' < b_records b ->
       0 <= b_rec_ind b' /\
       Z.abs (tm (b_dtime b) (b_rec_ind b') - tm dat i) <= max_tol * 1000000 /\
       (b_rec_ind b' = b_rec_ind b \/
        good_record b min_merit max_merit kwargs (b_rec_ind b'))).
Proof.
  intros b dat idat mt mn mx ks i b' W C Hr Hi Ht H.
  destruct (Z_le_gt_dec (zlen dat) idat) as [L1|L1].
  { unfold match_data_ocb in H. rewrite (proj2 (Z.leb_le _ _) L1) in H.
    injection H as <- <-. split; [lia|]. split; [lia|]. lia. }
  destruct (Z_le_gt_dec (b_records b) (b_rec_ind b)) as [L2|L2].
  { unfold match_data_ocb in H. rewrite (proj2 (Z.leb_gt _ _)) in H by lia.
    rewrite (proj2 (Z.leb_le _ _) L2) in H. injection H as <- <-. lia. }
  destruct (match_data_spec b dat idat mt mn mx ks W C) as [o [r [R1 [R2 _]]]]; try lia.
  rewrite R1 in H. injection H as -> <-. cbn [b_rec_ind set_rec_ind].
  destruct R2 as [[j [J1 [J2 [J3 [J4 J5]]]]]|[J1 [J2|[j [J2 [J3 J4]]]]]].
  - injection J1 as <-. split; [lia|]. split; [lia|]. intros _ _.
    split; [destruct J3; lia|]. split; [exact J5|].
    destruct J3 as [_ [J3|[_ J3]]]; auto.
  - discriminate.
  - injection J2 as <-. split; [lia|]. split; [lia|]. lia.
Qed.

Example C05_case :
  match_data_ocb (ex_b (-1)) [-500 * usec; 30 * usec; 50 * usec; 230 * usec] 0 60 None None []
  = Ok (Some 1, ex_b 0).
Proof. reflexivity. Qed.

(** ** C06 *)
Theorem C06_no_match_skipped :
  forall b dat idat max_tol min_merit max_merit kwargs,
    wf_boundary b -> wf_crits b kwargs ->
    -1 <= b_rec_ind b < b_records b -> 0 <= idat < zlen dat -> 0 <= max_tol ->
    time_sorted (b_dtime b) -> time_sorted dat ->
    let usable := candidate (good_record b min_merit max_merit kwargs)
                    (b_records b) (b_rec_ind b) in
    exists o b', match_data_ocb b dat idat max_tol min_merit max_merit kwargs = Ok (o, b') /\
      ((exists i, o = Some i /\ idat <= i < zlen dat /\ b_rec_ind b' < b_records b /\
          usable (b_rec_ind b') /\
          within (b_dtime b) dat (max_tol * 1000000) (b_rec_ind b') i /\
          forall i' k, idat <= i' < i -> usable k ->
            ~ within (b_dtime b) dat (max_tol * 1000000) k i') \/
       ((o = None \/ b_records b <= b_rec_ind b' \/ exists i, o = Some i /\ zlen dat <= i) /\
        forall i' k, idat <= i' < zlen dat -> usable k ->
          ~ within (b_dtime b) dat (max_tol * 1000000) k i')).
Proof.
  intros b dat idat mt mn mx ks W C Hr Hi Ht S1 S2 usable.
  destruct (match_data_spec b dat idat mt mn mx ks W C) as [o [r [R1 [R2 [R3 _]]]]]; try lia.
  exists o, (set_rec_ind b r). split; [exact R1|]. cbn [b_rec_ind set_rec_ind].
  destruct (R3 S1 S2) as [[i [J1 [J2 [J3 [J4 _]]]]]|[J1 J2]]; [left|right; split; assumption].
  exists i. split; [exact J1|].
  destruct R2 as [[j [K1 [K2 [K3 [K4 K5]]]]]|[K1 [K2|[j [K2 [K3 K4]]]]]].
  - rewrite J1 in K1. injection K1 as <-. split; [exact K2|]. split; [exact J3|].
    split; [exact K3|]. split; [exact K5|exact J4].
  - congruence.
  - rewrite J1 in K2. injection K2 as <-. lia.
Qed.

(** ** C07 *)
Theorem C07_match_is_closest :
  forall b dat idat max_tol min_merit max_merit kwargs i b',
    wf_boundary b -> wf_crits b kwargs ->
    -1 <= b_rec_ind b < b_records b -> 0 <= idat < zlen dat -> 0 <= max_tol ->
    strictly_time_sorted (b_dtime b) -> time_sorted dat ->
    match_data_ocb b dat idat max_tol min_merit max_merit kwargs = Ok (Some i, b') ->
    i < zlen dat -> b_rec_ind b' < b_records b ->
    closest (b_dtime b) dat
      (candidate (good_record b min_merit max_merit kwargs) (b_records b) (b_rec_ind b))
      i (b_rec_ind b').
Proof.
  intros b dat idat mt mn mx ks i b' W C Hr Hi Ht SS SD H L1 L2.
  destruct (match_data_spec b dat idat mt mn mx ks W C) as [o [r [R1 [R2 [R3 _]]]]]; try lia.
  rewrite R1 in H. injection H as -> <-. cbn [b_rec_ind set_rec_ind] in *.
  destruct (R3 (strictly_sorted_weak _ SS) SD) as [[j [J1 [J2 [J3 [J4 J5]]]]]|[J1 J2]].
  - injection J1 as <-. now apply J5.
  - destruct R2 as [[j [K1 [K2 [K3 [K4 K5]]]]]|[K1 [K2|[j [K2 [K3 K4]]]]]].
    + injection K1 as <-. exfalso. apply (J2 i r ltac:(lia) K3 K5).
    + discriminate.
    + injection K2 as <-. lia.
Qed.

Lemma ex_b_sorted rec : strictly_time_sorted (b_dtime (ex_b rec)).
Proof.
  intros i j H1 H2. assert (Hj : j < 5) by exact H2.
  assert (Ei : i = 0 \/ i = 1 \/ i = 2 \/ i = 3) by lia.
  assert (Ej : j = 1 \/ j = 2 \/ j = 3 \/ j = 4) by lia.
  destruct Ei as [->|[->|[->| ->]]]; destruct Ej as [->|[->|[->| ->]]];
    try lia; reflexivity.
Qed.

(** All five records usable; the data at 119 s lies between records 1 and 2. *)
Example C07_case :
  match_data_ocb (ex_b (-1)) [119 * usec; 170 * usec] 0 60 (Some NInf) (Some PInf)
    [("r", ("min", Fin 0))]
  = Ok (Some 0, ex_b 1) /\
  match_data_ocb (ex_b (-1)) [119 * usec; 170 * usec] 1 60 (Some NInf) (Some PInf) []
  = Ok (Some 1, ex_b 3).
Proof. split; reflexivity. Qed.

(** ** C08: false when boundary times repeat *)
Definition ex_rep : boundary :=
  mkB 3 (-1) (map (fun s => s * usec) [0; 0; 5]) [Fin 2; Fin 2; Fin 2] (Fin 1) (Fin 4) [].

Theorem C08_closest_with_repeated_times_refuted :
  exists b dat idat max_tol i b',
    wf_boundary b /\ wf_crits b [] /\ -1 <= b_rec_ind b < b_records b /\
    0 <= idat < zlen dat /\ 0 <= max_tol /\
    time_sorted (b_dtime b) /\ time_sorted dat /\
    match_data_ocb b dat idat max_tol None None [] = Ok (Some i, b') /\
    i < zlen dat /\ b_rec_ind b' < b_records b /\
    exists k, candidate (good_record b None None []) (b_records b) (b_rec_ind b) k /\
      Z.abs (tm (b_dtime b) k - tm dat i)
        < Z.abs (tm (b_dtime b) (b_rec_ind b') - tm dat i).
Proof.
  exists ex_rep, [5 * usec], 0, 10, 0, (set_rec_ind ex_rep 0).
  split.
  { split; [simpl; lia|]. split; [reflexivity|]. split; [reflexivity|].
    intros k l. unfold getattr, ex_rep. simpl.
    destruct (String.eqb k "fom"); [intros H; injection H as <-; reflexivity|].
    destruct (String.eqb k "dtime"); [intros H; injection H as <-; reflexivity|discriminate]. }
  split; [intros c []|]. split; [simpl; lia|]. split; [unfold zlen; simpl; lia|].
  split; [lia|]. split.
  { intros i j H1 H2. assert (Hj : j < 3) by exact H2.
    assert (Ei : i = 0 \/ i = 1 \/ i = 2) by lia.
    assert (Ej : j = 0 \/ j = 1 \/ j = 2) by lia.
    destruct Ei as [->|[->| ->]]; destruct Ej as [->|[->| ->]]; try lia; vm_compute; discriminate. }
  split.
  { intros i j H1 H2. assert (Hj : j < 1) by exact H2. assert (i = j) by lia. subst. lia. }
  split; [reflexivity|]. split; [unfold zlen; simpl; lia|]. split; [simpl; lia|].
  exists 2. split; [|reflexivity].
  split; [simpl; lia|]. right. split; [simpl; lia|].
  split; [simpl; lia|]. split; [intros c []|].
  exists (Fin 2). repeat split; reflexivity.
Qed.

(** ** C09 *)
Theorem C09_vort_pairs_exact :
  forall b dat max_sdiff min_merit max_merit kwargs,
    wf_boundary b -> wf_crits b kwargs ->
    strictly_time_sorted (b_dtime b) -> time_sorted dat -> 0 <= max_sdiff ->
    -1 <= b_rec_ind b < b_records b -> dat <> [] ->
    let usable := candidate (good_record b min_merit max_merit kwargs)
                    (b_records b) (b_rec_ind b) in
    ~ disjoint_periods (b_dtime b) dat (good_record b min_merit max_merit kwargs)
        (b_records b) (b_rec_ind b) (max_sdiff * 1000000) ->
    exists l, vort_pairs b dat max_sdiff min_merit max_merit kwargs = Ok l /\
      pairs_exactly (b_dtime b) dat usable (max_sdiff * 1000000) l.
Proof.
  intros b dat mt mn mx ks W C SS SD Ht Hr Hd usable Hn.
  destruct (vort_pairs_spec b dat mt mn mx ks W C SS SD Ht Hr Hd) as [[A _]|[_ B]];
    [contradiction|exact B].
Qed.

Theorem C09_supermag_pairs_exact :
  forall b dat max_sdiff min_merit max_merit kwargs,
    wf_boundary b -> wf_crits b kwargs ->
    strictly_time_sorted (b_dtime b) -> time_sorted dat -> 0 <= max_sdiff ->
    -1 <= b_rec_ind b < b_records b -> dat <> [] ->
    let usable := candidate (good_record b min_merit max_merit kwargs)
                    (b_records b) (b_rec_ind b) in
    ~ disjoint_periods (b_dtime b) dat (good_record b min_merit max_merit kwargs)
        (b_records b) (b_rec_ind b) (max_sdiff * 1000000) ->
    exists l, supermag_pairs b dat max_sdiff min_merit max_merit kwargs = Ok l /\
      pairs_exactly (b_dtime b) dat usable (max_sdiff * 1000000) l.
Proof.
  intros b dat mt mn mx ks W C SS SD Ht Hr Hd usable Hn.
  destruct (supermag_pairs_spec b dat mt mn mx ks W C SS SD Ht Hr Hd) as [[A _]|[_ B]];
    [contradiction|exact B].
Qed.

(** With the cursor unset, a measurement with a good record within the
    tolerance is in the output (and so the periods are not disjoint). *)
Theorem C09_every_matchable_measurement_processed :
  forall b dat max_sdiff min_merit max_merit kwargs i k,
    wf_boundary b -> wf_crits b kwargs ->
    strictly_time_sorted (b_dtime b) -> time_sorted dat -> 0 <= max_sdiff ->
    b_rec_ind b = -1 -> 0 <= i < zlen dat ->
    good_record b min_merit max_merit kwargs k ->
    within (b_dtime b) dat (max_sdiff * 1000000) k i ->
    exists l r, vort_pairs b dat max_sdiff min_merit max_merit kwargs = Ok l /\
      supermag_pairs b dat max_sdiff min_merit max_merit kwargs = Ok l /\ In (i, r) l.
Proof.
  intros b dat mt mn mx ks i k W C SS SD Ht Hr Hi Hg Hw.
  assert (Hk : 0 <= k < b_records b) by apply Hg.
  assert (Hd : dat <> []) by (intros ->; unfold zlen in Hi; simpl in Hi; lia).
  assert (Hn : ~ disjoint_periods (b_dtime b) dat (good_record b mn mx ks) (b_records b)
                (b_rec_ind b) (mt * 1000000)).
  { rewrite Hr. intros [[_ A]|[_ [j [B1 [B2 [B3 B4]]]]]].
    - specialize (A k). unfold within in Hw.
      assert (tm dat 0 <= tm dat i) by (apply SD; lia).
      assert (tm (b_dtime b) k < tm dat 0 - mt * 1000000); [|lia].
      apply A. split; [lia|]. right. split; [lia|exact Hg].
    - assert (Hjk : j <= k).
      { destruct (Z_le_gt_dec j k) as [L|L]; [exact L|]. exfalso.
        apply (B3 k); [lia|exact Hg]. }
      assert (tm (b_dtime b) j <= tm (b_dtime b) k).
      { apply (strictly_sorted_weak _ SS); [lia|]. destruct W as [_ [W _]]. lia. }
      specialize (B4 i Hi). unfold within in Hw. lia. }
  destruct (C09_vort_pairs_exact b dat mt mn mx ks) as [l [L1 [L2 L3]]]; try assumption; [lia|].
  destruct (C09_supermag_pairs_exact b dat mt mn mx ks) as [l' [L1' [L2' L3']]]; try assumption; [lia|].
  assert (El : l = l').
  { assert (Hlen : forall x, In x l <-> In x l').
    { intros [a c]. rewrite L3, L3'. reflexivity. }
    clear - L2 L2' Hlen.
    revert l' L2' Hlen. induction l as [|[a c] l IH]; intros l' L2' Hlen.
    - destruct l' as [|x l']; [reflexivity|]. exfalso.
      apply (proj2 (Hlen x)). now left.
    - destruct l' as [|[a' c'] l'].
      { exfalso. apply (proj1 (Hlen (a, c))). now left. }
      cbn [map fst] in *. inversion L2 as [|? ? S1 F1]; subst.
      inversion L2' as [|? ? S2 F2]; subst.
      rewrite Forall_forall in F1, F2.
      assert (E : (a, c) = (a', c')).
      { destruct (proj1 (Hlen (a, c)) (or_introl eq_refl)) as [E|I1]; [congruence|].
        destruct (proj2 (Hlen (a', c')) (or_introl eq_refl)) as [E|I2]; [congruence|].
        apply (in_map fst) in I1. apply (in_map fst) in I2. cbn [fst] in *.
        specialize (F1 _ I2). specialize (F2 _ I1). lia. }
      injection E as <- <-. f_equal. apply IH; try assumption.
      intros x. split; intros Hx.
      + destruct (proj1 (Hlen x) (or_intror Hx)) as [<-|I]; [|exact I].
        apply (in_map fst) in Hx. specialize (F1 _ Hx). cbn in F1. lia.
      + destruct (proj2 (Hlen x) (or_intror Hx)) as [<-|I]; [|exact I].
        apply (in_map fst) in Hx. specialize (F2 _ Hx). cbn in F2. lia. }
  subst l'.
  destruct (closest_exists (b_dtime b) dat
    (candidate (good_record b mn mx ks) (b_records b) (b_rec_ind b)) (b_records b) i)
    as [r Hc].
  { intros k' [K _]. exact K. }
  { intros k' Hk'. rewrite Hr.
    destruct (retrieve_spec b mn mx ks W C) as [g [_ [_ Hg']]].
    destruct (in_dec Z.eq_dec k' g) as [I|I].
    - left. split; [exact Hk'|]. right. split; [lia|now apply Hg'].
    - right. intros [_ [K|[_ K]]]; [lia|]. apply I. now apply Hg'. }
  { exists k. rewrite Hr. split; [exact Hk|]. right. split; [lia|exact Hg]. }
  exists l, r. split; [exact L1|]. split; [exact L1'|]. apply L3. split; [exact Hi|].
  split; [|exact Hc]. destruct Hc as [_ Hc].
  specialize (Hc k ltac:(rewrite Hr; split; [exact Hk|right; split; [lia|exact Hg]])).
  unfold within in *. lia.
Qed.

(** Records 0 and 4 are good; the data at 100 s, 110 s and 400 s are too far. *)
Example C09_case :
  vort_pairs (ex_b (-1)) (map (fun s => s * usec) [10; 20; 100; 110; 200; 200; 250; 400]) 60
    None None []
  = Ok [(0, 0); (1, 0); (4, 4); (5, 4); (6, 4)] /\
  supermag_pairs (ex_b (-1)) (map (fun s => s * usec) [10; 20; 100; 110; 200; 200; 250; 400]) 60
    None None []
  = Ok [(0, 0); (1, 0); (4, 4); (5, 4); (6, 4)].
Proof. split; vm_compute; reflexivity. Qed.

(** ** C10: the loops fail exactly when the periods are disjoint *)
Theorem C10_crash_iff_disjoint :
  forall b dat max_sdiff min_merit max_merit kwargs,
    wf_boundary b -> wf_crits b kwargs ->
    strictly_time_sorted (b_dtime b) -> time_sorted dat -> 0 <= max_sdiff ->
    -1 <= b_rec_ind b < b_records b -> dat <> [] ->
    (vort_pairs b dat max_sdiff min_merit max_merit kwargs = Err TypeError <->
     disjoint_periods (b_dtime b) dat (good_record b min_merit max_merit kwargs)
       (b_records b) (b_rec_ind b) (max_sdiff * 1000000)) /\
    (supermag_pairs b dat max_sdiff min_merit max_merit kwargs = Err TypeError <->
     disjoint_periods (b_dtime b) dat (good_record b min_merit max_merit kwargs)
       (b_records b) (b_rec_ind b) (max_sdiff * 1000000)).
Proof.
  intros b dat mt mn mx ks W C SS SD Ht Hr Hd. split.
  - destruct (vort_pairs_spec b dat mt mn mx ks W C SS SD Ht Hr Hd) as [[A B]|[A [l [B _]]]].
    + split; intros; assumption.
    + rewrite B. split; [discriminate|]. intros D. contradiction.
  - destruct (supermag_pairs_spec b dat mt mn mx ks W C SS SD Ht Hr Hd) as [[A B]|[A [l [B _]]]].
    + split; intros; assumption.
    + rewrite B. split; [discriminate|]. intros D. contradiction.
Qed.

Theorem C10_no_crash_refuted :
  exists b dat max_sdiff,
    wf_boundary b /\ strictly_time_sorted (b_dtime b) /\ time_sorted dat /\
    dat <> [] /\ b_rec_ind b = -1 /\ 0 <= max_sdiff /\
    vort_pairs b dat max_sdiff None None [] = Err TypeError /\
    supermag_pairs b dat max_sdiff None None [] = Err TypeError.
Proof.
  exists (ex_b (-1)), [1000 * usec; 1010 * usec], 60.
  split; [apply ex_b_wf|]. split; [apply ex_b_sorted|]. split.
  { intros i j H1 H2. assert (Hj : j < 2) by exact H2.
    assert (E : i = 0 /\ j = 0 \/ i = 0 /\ j = 1 \/ i = 1 /\ j = 1) by lia.
    destruct E as [[-> ->]|[[-> ->]|[-> ->]]]; vm_compute; discriminate. }
  split; [discriminate|]. split; [reflexivity|]. split; [lia|].
  split; vm_compute; reflexivity.
Qed.

Print Assumptions C01_next_good_record.
Print Assumptions C02_criterion_meaning.
Print Assumptions C02_order_irrelevant.
Print Assumptions C02_unknown_never_rejects.
Print Assumptions C03_retrieve_all_good.
Print Assumptions C04_match_terminates.
Print Assumptions C05_match_is_real.
Print Assumptions C06_no_match_skipped.
Print Assumptions C07_match_is_closest.
Print Assumptions C08_closest_with_repeated_times_refuted.
Print Assumptions C09_vort_pairs_exact.
Print Assumptions C09_supermag_pairs_exact.
Print Assumptions C09_every_matchable_measurement_processed.
Print Assumptions C10_crash_iff_disjoint.
Print Assumptions C10_no_crash_refuted.
