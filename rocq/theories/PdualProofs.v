(** Proofs about the processing functions given a DualBoundary. *)
From Coq Require Import String Ascii ZArith QArith List Bool Lia Sorted.
From Verif Require Import PyBase TimeModel FilesModel SmagModel CycleModel CycleSpec CycleProofs DriverModel DriverSpec
  DriverProofs DualModel DualSpec DualProofs DcritProofs PysatModel PysatProofs PysatProofs2 PdualModel.
Import ListNotations.
Open Scope string_scope.
Open Scope list_scope.
Open Scope Z_scope.

Lemma last_bound (l : list Z) x : StronglySorted Z.lt l -> In x l -> x <= last l 0 /\ In (last l 0) l.
Proof.
  revert x. induction l as [|a l IH]; [intros x _ []|]. intros x H Hx. inversion H as [|? ? H1 H2]; subst.
  destruct l as [|c l]; [destruct Hx as [->|[]]; simpl; split; [lia|now left]|].
  change (last (a :: c :: l) 0) with (last (c :: l) 0).
  destruct Hx as [->|Hx].
  - destruct (IH c H1 (or_introl eq_refl)) as [I1 I2]. split; [|now right].
    rewrite Forall_forall in H2. specialize (H2 _ I2). lia.
  - destruct (IH x H1 Hx) as [I1 I2]. split; [exact I1|now right].
Qed.

(** ** SuperMAG: the loop that pairs again at every call *)
Section ResetSmag.
  Variable d d1 : dual.
  Variable dat : list Z.
  Variable max_tol : Z.
  Variable mn mx : option num.
  Variable ks : list crit.
  Hypothesis Hg : DcritProofs.given mn mx ks.
  Hypothesis Hld : d_loaded d = true.
  Hypothesis Hs : set_good_ind d mn mx ks mn mx ks = Ok d1.
  Hypothesis H1 : d_rec d1 = Some 0.
  Hypothesis W : wf_dual d1.
  Hypothesis L1 : d_loaded d1 = true.
  Hypothesis M1 : d_max_delta d1 = d_max_delta d.
  Hypothesis O1 : same_data (d_ocb d) (d_ocb d1).
  Hypothesis E1 : same_data (d_eab d) (d_eab d1).
  Hypothesis SS : strictly_time_sorted (d_dtime d1).
  Hypothesis SD : time_sorted dat.
  Hypothesis Ht : 0 <= max_tol.
  Hypothesis Hpos : 0 < d_records d1.
  Notation N := (d_records d1).
  Notation mtd := (fun d i => match_data_dual d dat i max_tol mn mx ks).
  Notation d_ := (tm dat).
  Notation stk i := (i < zlen dat /\ 0 < N /\
    none_case N (d_dtime d1) dat (max_tol * usec) (all_pairs d1) 0 i).
  Notation cov := (covers N (d_dtime d1) dat (max_tol * usec) (all_pairs d1) 0).

  Lemma reset_smag fuel x i : ready d1 mn mx ks x -> 0 <= i -> (Z.to_nat (zlen dat - i) < fuel)%nat ->
    (forall k, 0 <= k < i -> i < zlen dat -> d_ k < d_ i) ->
    (stk i /\ supermag_loop dual d_records dual_cursor mtd dat fuel x i = Err TypeError) \/
    (~ stk i /\ exists l, supermag_loop dual d_records dual_cursor mtd dat fuel x i = Ok l /\ cov i l).
  Proof.
    revert x i. induction fuel as [|f IH]; intros x i Hx Hi Hf Hprev; [lia|].
    cbn [supermag_loop]. pose proof Hx as [_ [r [X1 X2]]].
    assert (XC : (dual_cursor x <? d_records x) = true)
      by (unfold dual_cursor; rewrite X1; now apply Z.ltb_lt).
    rewrite XC, andb_true_r.
    destruct (i <? zlen dat) eqn:E; zify_bool.
    2:{ right. split; [intros [A _]; lia|]. exists []. split; [reflexivity|]. apply covers_past. lia. }
    rewrite (ready_call d1 dat max_tol mn mx ks Hg H1 W Hpos x i Hx E).
    destruct (call0 d1 dat max_tol W SS SD Ht Hpos i ltac:(lia)) as [[r1 [R1 R2]]|[i1 [r1 [R1 [R2 [R3 R4]]]]]];
      rewrite R1; cbn [bind fst snd].
    { left. split; [exact R2|reflexivity]. }
    right. split; [exact R2|].
    destruct (dual_at_fields d1 r1 W) as [F1 [_ F3]].
    assert (FC : dual_cursor (dual_at d1 r1) = r1) by (unfold dual_cursor; now rewrite F3).
    rewrite FC, F1.
    destruct ((i1 <? zlen dat) && (r1 <? N)) eqn:E2.
    - apply andb_true_iff in E2. destruct E2 as [E3 E4]. zify_bool.
      destruct R4 as [[A1 [A2 [A3 [A4 [A5 A6]]]]]|[[A1|A1] _]]; [|lia|lia].
      assert (Hin : In i1 (same_time dat i1)) by (apply same_time_in; [lia|split; [lia|reflexivity]]).
      destruct (last_bound _ _ (same_time_sorted dat i1) Hin) as [L2 L3].
      set (m := last (same_time dat i1) 0) in *.
      apply same_time_in in L3; [|lia]. destruct L3 as [L3 L4].
      assert (Hbefore : forall k, 0 <= k < i1 -> d_ k < d_ i1).
      { intros k Hk. destruct (Z_lt_ge_dec k i) as [L|L].
        - specialize (Hprev k ltac:(lia) ltac:(lia)).
          assert (d_ i <= d_ i1) by (apply SD; lia). lia.
        - assert (d_ k <= d_ i1) by (apply SD; lia).
          destruct (Z.eq_dec (d_ k) (d_ i1)) as [Eq|]; [|lia]. exfalso.
          apply (A6 k r1 ltac:(lia)); [apply A5|]. unfold within. rewrite Eq. exact A4. }
      assert (Hblock : forall k, In k (same_time dat i1) <-> i1 <= k <= m).
      { intros k. rewrite same_time_in by lia. split.
        - intros [K1 K2]. split.
          + destruct (Z_lt_ge_dec k i1) as [L|L]; [|lia].
            specialize (Hbefore k ltac:(lia)). lia.
          + assert (In k (same_time dat i1)) by (apply same_time_in; [lia|auto]).
            destruct (last_bound _ _ (same_time_sorted dat i1) H) as [Q _]. exact Q.
        - intros K. split; [lia|].
          assert (d_ i1 <= d_ k) by (apply SD; lia).
          assert (d_ k <= d_ m) by (apply SD; lia). lia. }
      destruct (IH (dual_at d1 r1) (m + 1)) as [[[_ [_ [[B1 _]|[B1 _]]]] _]|[_ [l [B1 [B2 B3]]]]].
      { apply (ready_at d d1 mn mx ks Hld Hs W L1 M1 O1 E1). lia. } { lia. } { lia. }
      { intros k Hk Hm. assert (d_ k <= d_ m) by (apply SD; lia).
        assert (d_ m <= d_ (m + 1)) by (apply SD; lia).
        destruct (Z.eq_dec (d_ m) (d_ (m + 1))) as [Eq|]; [|lia]. exfalso.
        assert (Hm1 : In (m + 1) (same_time dat i1)) by (apply same_time_in; [lia|split; [lia|congruence]]).
        apply Hblock in Hm1. lia. }
      { lia. } { lia. }
      rewrite B1. cbn [bind]. eexists. split; [reflexivity|]. split.
      + rewrite map_app, map_map. cbn [fst]. rewrite map_id. apply sorted_app.
        * apply same_time_sorted.
        * exact B2.
        * intros x' y Hx' Hy. apply Hblock in Hx'. apply in_map_fst in Hy.
          destruct Hy as [r' Hy]. apply B3 in Hy. lia.
      + intros k r'. rewrite in_app_iff, B3, in_map_iff. split.
        * intros [[x' [K1 K2]]|[K1 [K2 K3]]].
          -- injection K1 as <- <-. pose proof K2 as K2'. apply Hblock in K2.
             apply same_time_in in K2'; [|lia]. destruct K2' as [_ K3].
             split; [lia|]. split; [unfold within; rewrite K3; exact A4|].
             now apply (closest_same_time _ dat _ x' i1 r1 K3).
          -- split; [lia|]. split; assumption.
        * intros [K1 [K2 K3]]. destruct (Z_lt_ge_dec k i1) as [L|L].
          -- exfalso. apply (A6 k r' ltac:(lia)); [apply K3|exact K2].
          -- destruct (Z_le_gt_dec k m) as [M|M].
             ++ left. exists k. assert (Hk : In k (same_time dat i1)) by (apply Hblock; lia).
                split; [|exact Hk]. apply same_time_in in Hk; [|lia].
                f_equal. eapply closest_unique; [|exact K3].
                now apply (closest_same_time _ dat _ k i1 r1 (proj2 Hk)).
             ++ right. split; [lia|]. split; assumption.
    - apply andb_false_iff in E2. destruct R4 as [[A1 [A2 _]]|[A1 A2]].
      { destruct E2 as [E2|E2]; zify_bool; lia. }
      exists []. split; [|now apply covers_nil].
      destruct f as [|f]; cbn [supermag_loop]; rewrite ?FC, ?F1;
        (replace ((i1 <? zlen dat) && (r1 <? N)) with false; [reflexivity|]);
        symmetry; apply andb_false_iff; exact E2.
  Qed.
End ResetSmag.

(** ** The records of the boundaries at each match *)
Definition named (oi ei : list Z) (p : Z * Z) : Z * (Z * Z) := (fst p, (tm oi (snd p), tm ei (snd p))).

Section Named.
  Variable dat : list Z.
  Variable max_tol : Z.
  Variable mn mx : option num.
  Variable ks : list crit.
  Variable P : dual -> Prop.
  Variable oi ei : list Z.
  Notation mtd := (fun d i => match_data_dual d dat i max_tol mn mx ks).
  Hypothesis HP : forall x i i1 x', P x -> 0 <= i < zlen dat -> dual_cursor x < d_records x ->
    mtd x i = Ok (Some i1, x') ->
    P x' /\ i <= i1 /\ (i1 < zlen dat -> dual_cursor x' < d_records x' ->
      b_rec_ind (d_ocb x') = tm oi (dual_cursor x') /\ b_rec_ind (d_eab x') = tm ei (dual_cursor x')).

  Lemma dual_loop_named fuel x i : P x -> 0 <= i ->
    dual_loop dat max_tol mn mx ks fuel x i
    = bind (vort_loop dual d_records dual_cursor mtd dat fuel x i) (fun l => Ok (map (named oi ei) l)).
  Proof.
    revert x i. induction fuel as [|f IH]; intros x i Hx Hi; cbn [dual_loop vort_loop].
    { destruct ((i <? zlen dat) && _); reflexivity. }
    destruct ((i <? zlen dat) && (dual_cursor x <? d_records x)) eqn:E; [|reflexivity].
    apply andb_true_iff in E. destruct E as [E1 E2]. zify_bool.
    destruct (match_data_dual x dat i max_tol mn mx ks) as [[[i1|] x']|] eqn:EM; cbn [bind]; try reflexivity.
    destruct (HP x i i1 x' Hx ltac:(lia) E2 EM) as [A [B C]].
    destruct ((i1 <? zlen dat) && (dual_cursor x' <? d_records x')) eqn:E3.
    - apply andb_true_iff in E3. destruct E3 as [E3 E4]. zify_bool.
      destruct (C E3 E4) as [C1 C2]. rewrite (IH x' (i1 + 1) A ltac:(lia)).
      destruct (vort_loop _ _ _ _ _ _ _ _) as [l|]; [|reflexivity]. cbn [bind map].
      unfold named at 2. cbn [fst snd]. rewrite C1, C2. reflexivity.
    - apply IH; [exact A|lia].
  Qed.
End Named.

Lemma dual_at_records d r : wf_dual d -> 0 <= r < d_records d ->
  b_rec_ind (d_ocb (dual_at d r)) = tm (d_ocb_ind d) r /\ b_rec_ind (d_eab (dual_at d r)) = tm (d_eab_ind d) r.
Proof.
  intros [W1 [W2 W3]] H. unfold dual_at, dual_set_rec_ind.
  rewrite (proj2 (Z.ltb_ge _ _)) by lia. rewrite (proj2 (Z.leb_gt _ _)) by lia.
  rewrite !getE_tm by lia. cbn. auto.
Qed.
Lemma dual_at_cursor d r : wf_dual d -> dual_cursor (dual_at d r) = r.
Proof. intros W. unfold dual_cursor. now rewrite (proj2 (proj2 (dual_at_fields d r W))). Qed.

(** Without criteria. *)
Lemma loop_plain d dat max_tol r0 fuel i :
  wf_dual d -> strictly_time_sorted (d_dtime d) -> time_sorted dat -> 0 <= max_tol ->
  in_step d -> d_rec d = Some r0 -> -1 <= r0 < d_records d -> 0 < d_records d -> 0 <= i ->
  dual_loop dat max_tol None None [] fuel d i
  = bind (vort_loop dual d_records dual_cursor (fun d i => match_data_dual d dat i max_tol None None []) dat fuel d i)
         (fun l => Ok (map (named (d_ocb_ind d) (d_eab_ind d)) l)).
Proof.
  intros W SS SD Ht S R0 Hr Hpos Hi. assert (Htol : 0 <= max_tol * usec) by (unfold usec; lia).
  apply (dual_loop_named dat max_tol None None [] (fun x => exists r, -1 <= r /\ x = dual_at d r)).
  2:{ exists r0. split; [lia|]. symmetry. now apply dual_at_self. }
  2:{ exact Hi. }
  intros x j i1 x' (r & Rr & ->) Hj Hc E. rewrite (dual_at_cursor d r W) in Hc.
  rewrite (proj1 (dual_at_fields d r W)) in Hc.
  destruct (call (d_records d) (d_dtime d) (dual_cycle (d_records d)) dat (max_tol * usec) (all_pairs d) dual
    (fun d i => match_data_dual d dat i max_tol None None []) (dual_at d)
    ltac:(symmetry; apply W) (dual_cycle_good d Hpos) (fun k H => H) SS SD Htol
    (match_dual_mk d dat max_tol W) r j ltac:(lia) Hj) as [[q [E' _]]|[i2 [q [E' [_ [Q1 Q2]]]]]].
  - rewrite E in E'. discriminate.
  - rewrite E in E'. injection E' as -> ->. split; [exists q; split; [exact Q1|reflexivity]|].
    rewrite (dual_at_cursor d q W), (proj1 (dual_at_fields d q W)). split.
    + destruct Q2 as [[Q2 _]|[_ _]]; [lia|].
      pose proof (match_dual_mk d dat max_tol W r j ltac:(lia) Hj) as E2. rewrite E in E2.
      destruct (match_core (d_records d) (d_dtime d) (dual_cycle (d_records d)) dat (max_tol * usec) r j) as [[o z]|] eqn:MC; [|discriminate].
      cbn [bind fst snd] in E2. injection E2 as <- _.
      destruct (match_core_spec (d_records d) (d_dtime d) (dual_cycle (d_records d)) dat (max_tol * usec) (all_pairs d)
        ltac:(symmetry; apply W) (dual_cycle_good d Hpos) (fun k H => H) r j Htol) as [o' [r' [X1 [X2 _]]]]; try lia.
      rewrite MC in X1. injection X1 as <- <-.
      destruct X2 as [[j' [Y1 [Y2 _]]]|[Y1 [Y2|[j' [Y2 [Y3 _]]]]]]; [injection Y1 as <-; lia|discriminate|injection Y2 as <-; lia].
    + intros Z1 Z2. destruct Q2 as [[_ [Q2 _]]|[[Q2|Q2] _]]; [|lia|lia]. now apply dual_at_records.
Qed.

(** With criteria. *)
Lemma core_later d dat max_tol r j o z : wf_dual d -> 0 < d_records d -> 0 <= max_tol -> -1 <= r < d_records d -> 0 <= j < zlen dat ->
  match_core (d_records d) (d_dtime d) (dual_cycle (d_records d)) dat (max_tol * usec) r j = Ok (Some o, z) -> j <= o.
Proof.
  intros W Hpos Ht Hr Hj MC. assert (Htol : 0 <= max_tol * usec) by (unfold usec; lia).
  destruct (match_core_spec (d_records d) (d_dtime d) (dual_cycle (d_records d)) dat (max_tol * usec) (all_pairs d)
    ltac:(symmetry; apply W) (dual_cycle_good d Hpos) (fun k H => H) r j Htol) as [o' [r' [X1 [X2 _]]]]; try lia.
  rewrite MC in X1. injection X1 as <- <-.
  destruct X2 as [[j' [Y1 [Y2 _]]]|[Y1 [Y2|[j' [Y2 [Y3 _]]]]]]; [injection Y1 as <-; lia|discriminate|injection Y2 as <-; lia].
Qed.

Lemma loop_given d d1 dat max_tol mn mx ks r0 fuel i :
  DcritProofs.given mn mx ks -> d_loaded d = true -> set_good_ind d mn mx ks mn mx ks = Ok d1 ->
  d_rec d1 = Some 0 -> in_step d1 -> wf_dual d1 -> d_loaded d1 = true -> d_max_delta d1 = d_max_delta d ->
  same_data (d_ocb d) (d_ocb d1) -> same_data (d_eab d) (d_eab d1) ->
  strictly_time_sorted (d_dtime d1) -> time_sorted dat -> 0 <= max_tol ->
  d_rec d = Some r0 -> r0 < d_records d -> 0 <= i ->
  dual_loop dat max_tol mn mx ks fuel d i
  = bind (vort_loop dual d_records dual_cursor (fun d i => match_data_dual d dat i max_tol mn mx ks) dat fuel d i)
         (fun l => Ok (map (named (d_ocb_ind d1) (d_eab_ind d1)) l)).
Proof.
  intros Hg Hld Hs H1 HI W L1 M1 O1 E1 SS SD Ht R0 Hr Hi.
  apply (dual_loop_named dat max_tol mn mx ks (fun x => x = d \/ exists r, x = dual_at d1 r)).
  2:{ now left. } 2:{ exact Hi. }
  intros x j i1 x' Hx Hj Hc E.
  assert (RD : ready d1 mn mx ks x).
  { destruct Hx as [->|[r ->]]; [split; [exact Hs|eauto]|]. rewrite (dual_at_cursor d1 r W), (proj1 (dual_at_fields d1 r W)) in Hc.
    apply (ready_at d d1 mn mx ks Hld Hs W L1 M1 O1 E1). exact Hc. }
  pose proof RD as [RS [q [Q1 Q2]]].
  rewrite (match_dual_given x d1 dat j max_tol mn mx ks q Hg Q1 Q2 ltac:(lia) RS H1 W) in E.
  destruct (d_records d1 <=? 0) eqn:Z0; zify_bool.
  - injection E as <- <-. split; [right; exists 0; symmetry; now apply dual_at_self|]. split; [lia|].
    intros _ X. unfold dual_cursor in X. rewrite H1 in X. lia.
  - destruct (call0 d1 dat max_tol W SS SD Ht Z0 j Hj) as [[r1 [C1 _]]|[i2 [r1 [C1 [_ [C3 C4]]]]]]; rewrite C1 in E; cbn [bind fst snd] in E; [discriminate|].
    injection E as <- <-. split; [right; exists r1; reflexivity|]. split.
    + exact (core_later d1 dat max_tol 0 j i2 r1 W Z0 Ht ltac:(lia) Hj C1).
    + rewrite (dual_at_cursor d1 r1 W), (proj1 (dual_at_fields d1 r1 W)). intros Z1 Z2.
      destruct C4 as [[_ [C4 _]]|[[C4|C4] _]]; [|lia|lia]. now apply dual_at_records.
Qed.

(** ** The output of add_ocb_to_data *)
Section ConvertDual.
Context {V : Type} (conv : Z * Z -> Z -> V).
Variables (d : dual) (times : list Z) (keep : list bool) (max_sdiff : Z) (mn mx : option num) (ks : list crit).
Variables (dt oi ei : list Z) (C : Z -> Prop).
Hypothesis ST : time_sorted times.
Hypothesis LK : length keep = length times.
Hypothesis NZ : d_records d <> 0.
Let tol := max_sdiff * 1000000.
Let uind := where_from 0 keep.
Let dat := flat_map (fun i => match py_get times i with Some t => [t] | None => [] end) uind.

(** [pairs] are exact: the output has the values of the pair closest in time. *)
Lemma convert_exact pairs :
  dual_loop dat max_sdiff mn mx ks (S (length dat)) d 0 = Ok (map (named oi ei) pairs) ->
  pairs_exactly dt dat C tol pairs ->
  exists out, convert_dual conv false d times keep max_sdiff mn mx ks = Ok (Some out) /\ length out = length times /\
    forall s, (s < length times)%nat ->
    (forall r, nth_error keep s = Some true -> closest dt times C (Z.of_nat s) r -> within dt times tol r (Z.of_nat s) ->
       nth_error out s = Some (Some (conv (tm oi r, tm ei r) (Z.of_nat s)))) /\
    (nth_error keep s <> Some true \/ (forall r, C r -> ~ within dt times tol r (Z.of_nat s)) -> nth_error out s = Some None).
Proof.
  intros E [PS PE]. unfold convert_dual. rewrite (proj2 (Z.eqb_neq _ _) NZ). fold uind. fold dat. rewrite E. cbn [bind andb].
  eexists. split; [reflexivity|]. split; [rewrite fill_length, repeat_length; reflexivity|]. intros s Ls.
  assert (DL : zlen dat = zlen uind) by exact (dat_len times keep 0 LK).
  destruct (fill_spec conv uind (proj1 (where_spec keep 0)) (map (named oi ei) pairs) (repeat None (length times))) with (s := s) as [A B].
  { rewrite map_map. cbn. exact PS. }
  { intros i r I. apply in_map_iff in I. destruct I as ([i' r'] & X & I). cbn in X. injection X as <- _. apply PE in I. rewrite DL in I. apply I. }
  { intros u I. apply (uind_in times keep 0 LK) in I. unfold zlen. rewrite repeat_length. apply I. }
  split.
  - intros r K Cl Wi. assert (Iu : In (Z.of_nat s) uind) by (apply (uind_in times keep 0 LK); rewrite Nat2Z.id; split; [unfold zlen; lia|exact K]).
    destruct (in_uind_index times keep 0 LK _ Iu) as (i & Ri & G & Et). fold uind in Ri, G. fold uind in Et. fold dat in Et.
    apply (A i (tm oi r, tm ei r)); [|exact G]. apply in_map_iff. exists (i, r). split; [reflexivity|].
    apply PE. rewrite DL. split; [exact Ri|]. unfold within, closest in *. rewrite Et. split; [exact Wi|exact Cl].
  - intros H. rewrite B; [apply nth_error_repeat; exact Ls|]. intros i r I G. apply in_map_iff in I. destruct I as ([i' r'] & X & I). cbn in X. injection X as <- <-.
    apply PE in I. rewrite DL in I. destruct I as (Ri & Wi & Cl).
    destruct (uind_nth times keep 0 LK i' Ri) as (u & G' & _ & Iu & Et). fold uind in G', Et. fold dat in Et.
    assert (u = Z.of_nat s) by congruence. subst u. apply (uind_in times keep 0 LK) in Iu. rewrite Nat2Z.id in Iu.
    destruct H as [H|H]; [apply H; apply Iu|]. unfold within in *. rewrite Et in Wi. apply (H r'); [apply Cl|exact Wi].
Qed.

(** All records of [C] precede the first sample. *)
Lemma convert_early :
  dual_loop dat max_sdiff mn mx ks (S (length dat)) d 0 = Err TypeError ->
  (forall k, C k -> tm dt k < tm dat 0 - tol) \/ (forall k i, C k -> 0 <= i < zlen dat -> tm dat i < tm dt k - tol) ->
  convert_dual conv false d times keep max_sdiff mn mx ks = Err TypeError /\
  forall s r, nth_error keep s = Some true -> C r -> ~ within dt times tol r (Z.of_nat s).
Proof.
  intros E A. unfold convert_dual. rewrite (proj2 (Z.eqb_neq _ _) NZ). fold uind. fold dat. rewrite E. split; [reflexivity|].
  intros s r K U Wi.
  assert (Ls : (s < length times)%nat) by (rewrite <- LK; apply nth_error_Some; congruence).
  assert (Iu : In (Z.of_nat s) uind) by (apply (uind_in times keep 0 LK); rewrite Nat2Z.id; split; [unfold zlen; lia|exact K]).
  destruct (in_uind_index times keep 0 LK _ Iu) as (i & Ri & G & Et). fold uind in Ri, G, Et. fold dat in Et.
  assert (DL : zlen dat = zlen uind) by exact (dat_len times keep 0 LK). rewrite <- DL in Ri.
  assert (T0i : tm dat 0 <= tm dat i) by (apply (dat_sorted times keep 0 ST LK); unfold zlen in *; fold uind; fold dat; lia).
  unfold within in Wi. rewrite <- Et in Wi. destruct A as [A|A].
  - specialize (A r U). lia.
  - specialize (A r i U Ri). lia.
Qed.
End ConvertDual.
