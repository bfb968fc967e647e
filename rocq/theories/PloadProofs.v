(** Facts used in PropertiesPload.v. *)
From Coq Require Import String Ascii ZArith QArith List Bool Sorted Permutation Lia.
From Verif Require Import PyBase TimeModel FilesModel FilesProofs SmagModel CycleModel CycleSpec CycleProofs CoordModel LoadModel LoadSpec LoadProofs
  DriverModel DriverProofs PropertiesLoad PropertiesCycle PysatModel PysatSpec PysatProofs PysatProofs2 PysatProofs3 PropertiesPysat PloadModel.
Import ListNotations.
Open Scope list_scope.
Open Scope Z_scope.

Lemma sorted_nat_same (l m : list nat) : StronglySorted lt l -> StronglySorted lt m -> (forall x, In x l <-> In x m) -> l = m.
Proof.
  intros SL. revert m. induction SL as [|a l SL IH FL]; intros m SM H.
  - destruct m as [|b m]; [reflexivity|]. destruct (proj2 (H b) (or_introl eq_refl)).
  - destruct m as [|b m]; [destruct (proj1 (H a) (or_introl eq_refl))|]. inversion SM as [|? ? SM' FM]; subst. rewrite Forall_forall in FL, FM.
    assert (E : a = b).
    { destruct (proj1 (H a) (or_introl eq_refl)) as [E|I]; [congruence|]. destruct (proj2 (H b) (or_introl eq_refl)) as [E|I2]; [congruence|]. specialize (FM _ I). specialize (FL _ I2). lia. }
    subst b. f_equal. apply IH; [exact SM'|]. intros x. split; intros I.
    + destruct (proj1 (H x) (or_intror I)) as [<-|J]; [specialize (FL _ I); lia|exact J].
    + destruct (proj2 (H x) (or_intror I)) as [<-|J]; [specialize (FM _ I); lia|exact J].
Qed.
Lemma seq_sorted n : forall s, StronglySorted lt (seq s n).
Proof. induction n as [|n IH]; intros s; cbn; constructor; [apply IH|]. apply Forall_forall. intros x I. apply in_seq in I. lia. Qed.
Lemma all_selected times idx : selected None None times idx -> idx = seq 0 (length times).
Proof.
  intros [S I]. apply sorted_nat_same; [exact S|apply seq_sorted|]. intros x. rewrite I, in_seq. split.
  - intros (t & E & _). assert ((x < length times)%nat) by (apply nth_error_Some; congruence). lia.
  - intros [_ L]. destruct (nth_error times x) as [t|] eqn:E; [|apply nth_error_None in E; cbn in L; lia]. exists t. split; [reflexivity|]. split; intros ? X; discriminate X.
Qed.
Lemma F2_nth {A B} (R : A -> B -> Prop) l m : Forall2 R l m -> forall i a, nth_error l i = Some a -> exists b, nth_error m i = Some b /\ R a b.
Proof. intros H. induction H as [|a b l m H1 H2 IH]; intros [|i] x E; cbn in *; try discriminate; [injection E as <-; eauto|eauto]. Qed.
Lemma seq_F2 {B} (R : nat -> B -> Prop) n m : Forall2 R (seq 0 n) m -> length m = n /\ forall i b, nth_error m i = Some b -> R i b.
Proof.
  intros H. assert (L : length m = n) by (rewrite <- (seq_length n 0); symmetry; eapply F2_length; exact H). split; [exact L|]. intros i b E.
  assert (I : (i < n)%nat) by (rewrite <- L; apply nth_error_Some; congruence). assert (NS : nth_error (seq 0 n) i = Some i) by (clear -I; change (Some i) with (Some (0 + i)%nat); revert i I; generalize 0%nat; induction n as [|n IH]; intros s [|i] I; cbn; try lia; [f_equal; lia|rewrite IH by lia; f_equal; lia]).
  destruct (F2_nth _ _ _ H i i NS) as (b' & E' & R'). congruence.
Qed.
Lemma same_entries {A} (l : list A) : forall m, length l = length m -> (forall i a, nth_error l i = Some a -> nth_error m i = Some a) -> l = m.
Proof.
  induction l as [|a l IH]; intros [|b m] L H; cbn in L; try discriminate; [reflexivity|]. pose proof (H 0%nat a eq_refl) as X. cbn in X. injection X as ->.
  f_equal. apply IH; [lia|]. intros i x E. exact (H (S i) x E).
Qed.

(** [d] holds the records of [w] at the positions [idx]. *)
Record part {F K} (d w : loaded F K) (idx : list nat) : Prop := mkPart {
  pt_sorted : StronglySorted lt idx;
  pt_n : l_records d = Z.of_nat (length idx);
  pt_w : l_records w = Z.of_nat (length (l_dtime w));
  pt_times : Forall2 (fun i t => nth_error (l_dtime w) i = Some t) idx (l_dtime d);
  pt_rf : Forall2 (fun i t => nth_error (l_rfunc w) i = Some t) idx (l_rfunc d);
  pt_kw : Forall2 (fun i t => nth_error (l_kwargs w) i = Some t) idx (l_kwargs d);
  pt_attrs : Forall2 (fun a b => fst a = fst b /\ Forall2 (fun i v => nth_error (snd b) i = Some v) idx (snd a)) (l_attrs d) (l_attrs w) }.
Lemma loaded_part {F K} cols fmt s e inst (noargs : K) file (d w : loaded F K) : is_table cols file ->
  load cols fmt None None inst GNone GNone noargs file = Ok (Some w) -> load cols fmt (Some s) (Some e) inst GNone GNone noargs file = Ok (Some d) ->
  exists idx, part d w idx /\ forall i, In i idx <-> exists t, nth_error (l_dtime w) i = Some t /\ s <= t <= e.
Proof.
  intros T W D. pose proof (load_spec _ _ _ _ _ _ _ _ _ _ T W) as (_ & times & idxw & A & B & C & _ & E & RF & RFL & KW & KWL & G & I).
  pose proof (load_spec _ _ _ _ _ _ _ _ _ _ T D) as (_ & times' & idx & A' & B' & C' & _ & E' & RF' & RFL' & KW' & KWL' & G' & I').
  assert (TT : times' = times).
  { destruct (time_flag_spec cols) as (F1 & F2 & F3). destruct (time_flag cols) as [flag|] eqn:TF; [|unfold load in W; rewrite TF in W; discriminate].
    destruct T as [N _]. apply (times_spec cols fmt file times flag N TF) in A. apply (times_spec cols fmt file times' flag N TF) in A'. congruence. }
  subst times'. apply all_selected in B. subst idxw. destruct (seq_F2 _ _ _ E) as [EL EN].
  assert (DT : l_dtime w = times).
  { apply same_entries; [exact EL|]. intros i t X. apply EN. exact X. }
  exists idx. pose proof (idx_bound _ _ _ _ B') as BD. split.
  - destruct B' as [SS _]. constructor.
    + exact SS.
    + exact C'.
    + rewrite DT, C, seq_length. reflexivity.
    + rewrite DT. exact E'.
    + cbn in RF, RF'. destruct RF as (f & Q & ->), RF' as (f' & Q' & ->). assert (f' = f) by congruence. subst f'. clear -BD. rewrite seq_length. induction BD as [|i idx H B IH]; cbn; constructor; [|exact IH].
      apply nth_error_repeat. exact H.
    + cbn in KW, KW'. destruct KW as (f & Q & ->), KW' as (f' & Q' & ->). assert (f' = f) by congruence. subst f'. clear -BD. rewrite seq_length. induction BD as [|i idx H B IH]; cbn; constructor; [|exact IH].
      apply nth_error_repeat. exact H.
    + assert (LR : length times = length file) by (symmetry; eapply F2_length; exact A).
      assert (GG : map fst (l_attrs d) = map fst (l_attrs w)) by congruence. clear G G' RF RF' RFL RFL' KW KW' KWL KWL' W D C C' E E'. revert GG I I'. generalize (l_attrs d) as ad, (l_attrs w) as aw.
      intros ad. induction ad as [|[n sel] ad IH]; intros aw G I I'; destruct aw as [|[n' sel'] aw]; try discriminate G; [constructor|].
      cbn [map fst] in G. injection G as Hn G. subst n'. constructor.
      * cbn [fst snd]. split; [reflexivity|]. pose proof (I' _ _ (or_introl eq_refl)) as X. pose proof (I _ _ (or_introl eq_refl)) as Y.
        destruct (seq_F2 _ _ _ Y) as [YL YN]. clear -X YL YN BD. induction X as [|i v idx sel X1 X2 IHX]; constructor; [|apply IHX; inversion BD; assumption].
        inversion BD as [|? ? H1 H2]; subst. destruct (nth_error sel' i) as [v'|] eqn:EV; [|apply nth_error_None in EV; lia].
        destruct (YN i v' EV) as (row & R1 & R2), X1 as (row' & R1' & R2'). congruence.
      * apply (IH aw G); [intros name s0 J; apply (I name s0); right; exact J|intros name s0 J; apply (I' name s0); right; exact J].
  - rewrite DT. intros i. rewrite (proj2 B' i). unfold in_window. split; intros (t & X & Y); exists t; (split; [exact X|]).
    + destruct Y as [Y1 Y2]. specialize (Y1 _ eq_refl). specialize (Y2 _ eq_refl). lia.
    + split; intros q Q; injection Q as <-; lia.
Qed.

(** ** The records of a part *)
Lemma nth_tm l i t : nth_error l (Z.to_nat i) = Some t -> tm l i = t.
Proof. intros E. unfold tm. apply nth_error_nth. exact E. Qed.
Lemma sorted_nth idx : StronglySorted lt idx -> forall j k a b, nth_error idx j = Some a -> nth_error idx k = Some b -> (j < k)%nat -> (a < b)%nat.
Proof.
  intros S. induction S as [|x idx S IH F]; intros [|j] [|k] a b A B L; cbn in *; try discriminate; try lia.
  - injection A as <-. rewrite Forall_forall in F. apply F. eapply nth_error_In. exact B.
  - apply (IH j k); [assumption|assumption|lia].
Qed.
Lemma F2_same {A B} (R : A -> B -> Prop) l m k a b : Forall2 R l m -> nth_error l k = Some a -> nth_error m k = Some b -> R a b.
Proof. intros H E1 E2. destruct (F2_nth _ _ _ H _ _ E1) as (b' & E & X). congruence. Qed.
Lemma F2_at {A} (l : list A) idx m k i : Forall2 (fun i t => nth_error l i = Some t) idx m -> nth_error idx k = Some i -> nth_error m k = nth_error l i.
Proof. intros H E. destruct (F2_nth _ _ _ H _ _ E) as (b & -> & ->). reflexivity. Qed.
Lemma assoc_part {A B} (R : A -> B -> Prop) name : forall (l : list (string * A)) (m : list (string * B)), Forall2 (fun a b => fst a = fst b /\ R (snd a) (snd b)) l m ->
  match assoc name l, assoc name m with Some a, Some b => R a b | None, None => True | _, _ => False end.
Proof.
  intros l m H. induction H as [|[n a] [n' b] l m [E1 E2] H IH]; cbn [assoc]; [exact I|]. cbn [fst snd] in E1, E2. subst n'. destruct (String.eqb name n); [exact E2|exact IH].
Qed.
Lemma assoc_snd {A B} (f : A -> B) name l : assoc name (map (fun p => (fst p, f (snd p))) l) = option_map f (assoc name l).
Proof. induction l as [|[n a] l IH]; cbn; [reflexivity|]. destruct (String.eqb name n); [reflexivity|exact IH]. Qed.
Section Part.
Context {F K : Type} (d w : loaded F K) (idx : list nat) (P : part d w idx) (num_of : val -> num) (mn0 mx0 : num).
Notation bd := (as_boundary num_of mn0 mx0 d).
Notation bw := (as_boundary num_of mn0 mx0 w).
Variables (mn mx : option num) (ks : list crit).
Lemma part_time k i : nth_error idx k = Some i -> tm (l_dtime d) (Z.of_nat k) = tm (l_dtime w) (Z.of_nat i).
Proof.
  intros E. pose proof (F2_at _ _ _ _ _ (pt_times _ _ _ P) E) as X. destruct (F2_nth _ _ _ (pt_times _ _ _ P) _ _ E) as (t & E1 & E2).
  rewrite (nth_tm _ (Z.of_nat k) t), (nth_tm _ (Z.of_nat i) t); [reflexivity| |]; rewrite Nat2Z.id; assumption.
Qed.
Lemma part_record k i : nth_error idx k = Some i -> record_at d (Z.of_nat k) = record_at w (Z.of_nat i).
Proof.
  intros E. unfold record_at. rewrite !Nat2Z.id. rewrite (F2_at _ _ _ _ _ (pt_times _ _ _ P) E), (F2_at _ _ _ _ _ (pt_rf _ _ _ P) E), (F2_at _ _ _ _ _ (pt_kw _ _ _ P) E). f_equal.
  pose proof (pt_attrs _ _ _ P) as H. induction H as [|[n a] [n' b] l m [E1 E2] H IH]; cbn [map]; [reflexivity|]. cbn [fst snd] in *. subst n'. f_equal; [|exact IH]. f_equal. exact (F2_at _ _ _ _ _ E2 E).
Qed.
Lemma part_getattr name : match getattr bd name, getattr bw name with
  | Some (AArr l), Some (AArr m) => forall k i, nth_error idx k = Some i -> nth_error l k = nth_error m i
  | None, None => True
  | _, _ => False end.
Proof.
  pose proof (fun name => assoc_part (fun (a b : list val) => Forall2 (fun i v => nth_error b i = Some v) idx a) name _ _ (pt_attrs _ _ _ P)) as A.
  unfold getattr. destruct (String.eqb name "fom").
  - unfold as_boundary. cbn [b_fom]. specialize (A "fom"%string). destruct (assoc "fom" (l_attrs d)) as [a|], (assoc "fom" (l_attrs w)) as [b|]; try contradiction.
    + intros k i E. rewrite !nth_error_map. f_equal. exact (F2_at _ _ _ _ _ A E).
    + intros k i _. destruct k, i; reflexivity.
  - destruct (String.eqb name "dtime").
    + intros k i E. rewrite !nth_error_map. f_equal. exact (F2_at _ _ _ _ _ (pt_times _ _ _ P) E).
    + unfold as_boundary. cbn [b_attrs]. rewrite !(assoc_snd (fun l => AArr (map num_of l))). specialize (A name).
      destruct (assoc name (l_attrs d)) as [a|], (assoc name (l_attrs w)) as [b|]; try contradiction; [|exact I]. cbn [option_map].
      intros k i E. rewrite !nth_error_map. f_equal. exact (F2_at _ _ _ _ _ A E).
Qed.
Lemma part_good k i : nth_error idx k = Some i -> good_record bd mn mx ks (Z.of_nat k) <-> good_record bw mn mx ks (Z.of_nat i).
Proof.
  intros E. unfold good_record. cbn [as_boundary b_records b_fom].
  assert (KL : (k < length idx)%nat) by (apply nth_error_Some; congruence).
  assert (IL : (i < length (l_dtime w))%nat).
  { destruct (F2_nth _ _ _ (pt_times _ _ _ P) _ _ E) as (t & _ & X). apply nth_error_Some. congruence. }
  assert (PS : forall c, passes bd (Z.of_nat k) c <-> passes bw (Z.of_nat i) c).
  { intros c. unfold passes. rewrite !Nat2Z.id. pose proof (part_getattr (fst c)) as G. destruct (getattr bd (fst c)) as [[l|]|], (getattr bw (fst c)) as [[m|]|]; try contradiction.
    - specialize (G k i E). split; intros H l' tv X Y; injection X as <-; (apply (H _ tv eq_refl); congruence).
    - split; intros _ l' tv X; discriminate X. }
  pose proof (part_getattr "fom") as G. cbn [getattr String.eqb Ascii.eqb Bool.eqb] in G. specialize (G k i E). rewrite !Nat2Z.id.
  pose proof (pt_n _ _ _ P) as PN. pose proof (pt_w _ _ _ P) as PW.
  unfold merit_lo, merit_hi. cbn [as_boundary b_fom b_min_fom b_max_fom] in *. split; intros (A & B & f & C1 & C2); (split; [lia|]); (split; [intros c I; apply PS; apply B; exact I|]); exists f; (split; [congruence|exact C2]).
Qed.
Hypothesis RD : l_rec_ind d = -1.
Hypothesis RW : l_rec_ind w = -1.
Lemma usable_good (l : loaded F K) r : l_rec_ind l = -1 -> usable_record (as_boundary num_of mn0 mx0 l) mn mx ks r <-> good_record (as_boundary num_of mn0 mx0 l) mn mx ks r.
Proof.
  intros E. unfold usable_record, candidate. cbn [as_boundary b_rec_ind b_records]. rewrite E. split.
  - intros [A [B|[_ B]]]; [lia|exact B].
  - intros G. destruct G as [A B]. cbn [as_boundary b_records] in A. split; [exact A|]. right. split; [lia|]. split; assumption.
Qed.
Lemma part_usable k i : nth_error idx k = Some i -> usable_record bd mn mx ks (Z.of_nat k) <-> usable_record bw mn mx ks (Z.of_nat i).
Proof. intros E. rewrite (usable_good d _ RD), (usable_good w _ RW). apply part_good. exact E. Qed.
Variables (rows : list (Z * (num * list num))) (max_sdiff : Z).
Hypothesis COV : forall i s, (i < length (l_dtime w))%nat -> (s < length rows)%nat -> Z.abs (tm (l_dtime w) (Z.of_nat i) - tm (map fst rows) (Z.of_nat s)) <= max_sdiff * 1000000 -> In i idx.
Lemma usable_d_at r : usable_record bd mn mx ks r -> exists k i, r = Z.of_nat k /\ nth_error idx k = Some i.
Proof.
  intros [A _]. cbn [as_boundary b_records] in A. rewrite (pt_n _ _ _ P) in A. destruct (nth_error idx (Z.to_nat r)) as [i|] eqn:E; [|apply nth_error_None in E; lia].
  exists (Z.to_nat r), i. split; [lia|exact E].
Qed.
Lemma near_in r s : (s < length rows)%nat -> usable_record bw mn mx ks r -> near bw rows max_sdiff r s -> exists k i, r = Z.of_nat i /\ nth_error idx k = Some i.
Proof.
  intros L [A _] N. cbn [as_boundary b_records] in A. rewrite (pt_w _ _ _ P) in A. unfold near, within in N. cbn [as_boundary b_dtime] in N.
  assert (I : In (Z.to_nat r) idx) by (apply (COV _ s); [lia|exact L|rewrite Z2Nat.id by lia; exact N]).
  apply In_nth_error in I. destruct I as [k E]. exists k, (Z.to_nat r). split; [lia|exact E].
Qed.
Lemma near_part k i s : nth_error idx k = Some i -> near bd rows max_sdiff (Z.of_nat k) s <-> near bw rows max_sdiff (Z.of_nat i) s.
Proof. intros E. unfold near, within. cbn [as_boundary b_dtime]. rewrite (part_time _ _ E). reflexivity. Qed.
Lemma idx_order k i k' i' : nth_error idx k = Some i -> nth_error idx k' = Some i' -> (k < k')%nat <-> (i < i')%nat.
Proof.
  intros A B. pose proof (pt_sorted _ _ _ P) as S. split; intros L; [exact (sorted_nth _ S _ _ _ _ A B L)|].
  destruct (Nat.lt_trichotomy k k') as [X|[X|X]]; [exact X|subst k'; assert (i = i') by congruence; lia|]. pose proof (sorted_nth _ S _ _ _ _ B A X). lia.
Qed.
Lemma closest_part k i s : (s < length rows)%nat -> nth_error idx k = Some i -> near bw rows max_sdiff (Z.of_nat i) s ->
  closest (b_dtime bd) (map fst rows) (usable_record bd mn mx ks) (Z.of_nat s) (Z.of_nat k) <-> closest (b_dtime bw) (map fst rows) (usable_record bw mn mx ks) (Z.of_nat s) (Z.of_nat i).
Proof.
  intros L E N. unfold closest. cbn [as_boundary b_dtime]. rewrite (part_usable _ _ E), (part_time _ _ E). split; intros [A B]; (split; [exact A|]); intros r U.
  - destruct (Z_le_gt_dec (Z.abs (tm (l_dtime w) r - tm (map fst rows) (Z.of_nat s))) (max_sdiff * 1000000)) as [NR|FR].
    + destruct (near_in r s L U NR) as (k' & i' & -> & E'). pose proof (proj2 (part_usable _ _ E') U) as U'. destruct (B _ U') as [B1 B2]. rewrite (part_time _ _ E') in B1, B2.
      split; [exact B1|]. intros LT. apply B2. pose proof (idx_order _ _ _ _ E' E). lia.
    + unfold near, within in N. cbn [as_boundary b_dtime] in N. split; [lia|intros _; lia].
  - destruct (usable_d_at r U) as (k' & i' & -> & E'). destruct (B _ (proj1 (part_usable _ _ E') U)) as [B1 B2]. rewrite (part_time _ _ E'). split; [exact B1|].
    intros LT. apply B2. pose proof (idx_order _ _ _ _ E' E). lia.
Qed.
Context {V : Type} (conv : record F K -> Z -> V) (accepted : num -> list num -> Prop).
Notation convd := (converted (fun r s => conv (record_at d r) s) bd rows max_sdiff mn mx ks accepted).
Notation convw := (converted (fun r s => conv (record_at w r) s) bw rows max_sdiff mn mx ks accepted).
Lemma converted_part out : convd out <-> convw out.
Proof.
  assert (SL : forall s x, nth_error rows s = Some x -> (s < length rows)%nat) by (intros s x E; apply nth_error_Some; congruence).
  assert (NN : forall s x, nth_error rows s = Some x -> (forall r, usable_record bd mn mx ks r -> ~ near bd rows max_sdiff r s) <-> (forall r, usable_record bw mn mx ks r -> ~ near bw rows max_sdiff r s)).
  { intros s x R. split; intros H r U N.
    - destruct (near_in r s (SL _ _ R) U N) as (k & i & -> & E). apply (H (Z.of_nat k)); [apply (part_usable _ _ E); exact U|apply (near_part _ _ _ E); exact N].
    - destruct (usable_d_at r U) as (k & i & -> & E). apply (H (Z.of_nat i)); [apply (part_usable _ _ E); exact U|apply (near_part _ _ _ E); exact N]. }
  unfold converted. split; intros [A B]; (split; [exact A|]); intros s t lat vs R; destruct (B s t lat vs R) as [B1 B2]; (split; [|intros [X|X]; apply B2; [left; exact X|right; apply (NN _ _ R); exact X]]); intros r Ac C N.
  - destruct (near_in r s (SL _ _ R) (proj1 C) N) as (k & i & -> & E). rewrite <- (part_record _ _ E). apply (B1 (Z.of_nat k) Ac); [apply (closest_part _ _ _ (SL _ _ R) E N); exact C|apply (near_part _ _ _ E); exact N].
  - destruct (usable_d_at r (proj1 C)) as (k & i & -> & E). pose proof (proj1 (near_part _ _ _ E) N) as N'. rewrite (part_record _ _ E). apply (B1 (Z.of_nat i) Ac); [apply (closest_part _ _ _ (SL _ _ R) E N'); exact C|exact N'].
Qed.
Lemma near_any : (forall s t lat vs r, nth_error rows s = Some (t, (lat, vs)) -> accepted lat vs -> usable_record bd mn mx ks r -> ~ near bd rows max_sdiff r s) <->
  (forall s t lat vs r, nth_error rows s = Some (t, (lat, vs)) -> accepted lat vs -> usable_record bw mn mx ks r -> ~ near bw rows max_sdiff r s).
Proof.
  split; intros H s t lat vs r R Ac U N.
  - assert (SL : (s < length rows)%nat) by (apply nth_error_Some; congruence). destruct (near_in r s SL U N) as (k & i & -> & E). apply (H s t lat vs (Z.of_nat k) R Ac); [apply (part_usable _ _ E); exact U|apply (near_part _ _ _ E); exact N].
  - destruct (usable_d_at r U) as (k & i & -> & E). apply (H s t lat vs (Z.of_nat i) R Ac); [apply (part_usable _ _ E); exact U|apply (near_part _ _ _ E); exact N].
Qed.
End Part.

(** ** One output *)
Section One.
Context {V : Type} (conv : Z -> Z -> V) (b : boundary) (rows : list (Z * (num * list num))) (max_sdiff : Z) (mn mx : option num) (ks : list crit) (accepted : num -> list num -> Prop).
Hypothesis W : wf_boundary b.
Hypothesis WC : wf_crits b ks.
Hypothesis RI : b_rec_ind b = -1.
Lemma usable_dec k : 0 <= k < b_records b -> usable_record b mn mx ks k \/ ~ usable_record b mn mx ks k.
Proof.
  intros Hk. unfold usable_record. rewrite RI. destruct (retrieve_spec b mn mx ks W WC) as [g [_ [_ Hg']]].
  destruct (in_dec Z.eq_dec k g) as [I|I].
  - left. split; [exact Hk|]. right. split; [lia|now apply Hg'].
  - right. intros [_ [K|[_ K]]]; [lia|]. apply I. now apply Hg'.
Qed.
(** Either nothing usable is near a sample, or the closest usable record is. *)
Lemma near_cases s : (forall r, usable_record b mn mx ks r -> ~ near b rows max_sdiff r s) \/
  (exists r, closest (b_dtime b) (map fst rows) (usable_record b mn mx ks) (Z.of_nat s) r /\ near b rows max_sdiff r s).
Proof.
  assert (D : forall n : nat, (Z.of_nat n <= b_records b) -> (exists k, usable_record b mn mx ks k) \/ (forall k, usable_record b mn mx ks k -> ~ k < Z.of_nat n)).
  { induction n as [|n IH]; intros L; [right; intros k [K _]; lia|]. destruct (IH ltac:(lia)) as [Y|Y]; [left; exact Y|].
    destruct (usable_dec (Z.of_nat n) ltac:(lia)) as [U|U]; [left; eauto|]. right. intros k Uk Lk. destruct (Z.eq_dec k (Z.of_nat n)) as [->|NE]; [contradiction|]. apply (Y k Uk). lia. }
  destruct W as [N0 _]. destruct (D (Z.to_nat (b_records b)) ltac:(lia)) as [Y|Y].
  - destruct (closest_exists (b_dtime b) (map fst rows) (usable_record b mn mx ks) (b_records b) (Z.of_nat s)) as [r C]; [intros k [K _]; exact K|exact usable_dec|exact Y|].
    destruct (Z_le_gt_dec (Z.abs (tm (b_dtime b) r - tm (map fst rows) (Z.of_nat s))) (max_sdiff * 1000000)) as [NR|FR]; [right; exists r; split; [exact C|exact NR]|].
    left. intros k U N. unfold near, within in N. destruct (proj2 C k U) as [B _]. lia.
  - left. intros r U _. pose proof U as [K _]. apply (Y r U). lia.
Qed.
Hypothesis AD : forall lat vs, accepted lat vs \/ ~ accepted lat vs.
Lemma converted_unique o1 o2 : converted conv b rows max_sdiff mn mx ks accepted o1 -> converted conv b rows max_sdiff mn mx ks accepted o2 -> o1 = o2.
Proof.
  intros [L1 A1] [L2 A2]. apply same_entries; [congruence|]. intros s x E.
  destruct (nth_error rows s) as [[t [lat vs]]|] eqn:R; [|apply nth_error_None in R; assert ((s < length o1)%nat) by (apply nth_error_Some; congruence); lia].
  destruct (A1 _ _ _ _ R) as [B1 B2], (A2 _ _ _ _ R) as [C1 C2]. destruct (AD lat vs) as [Ac|NA].
  - destruct (near_cases s) as [NN|(r & CL & NR)].
    + rewrite (C2 (or_intror NN)). rewrite (B2 (or_intror NN)) in E. exact E.
    + rewrite (C1 r Ac CL NR). rewrite (B1 r Ac CL NR) in E. exact E.
  - rewrite (C2 (or_introl NA)). rewrite (B2 (or_introl NA)) in E. exact E.
Qed.
Lemma no_value_far out : (forall s t lat vs r, nth_error rows s = Some (t, (lat, vs)) -> accepted lat vs -> usable_record b mn mx ks r -> ~ near b rows max_sdiff r s) ->
  converted conv b rows max_sdiff mn mx ks accepted out -> forall s x, nth_error out s = Some x -> x = None.
Proof.
  intros H [L A] s x E. destruct (nth_error rows s) as [[t [lat vs]]|] eqn:R; [|apply nth_error_None in R; assert ((s < length out)%nat) by (apply nth_error_Some; congruence); lia].
  destruct (A _ _ _ _ R) as [_ B]. destruct (AD lat vs) as [Ac|NA]; [|rewrite B in E by (left; exact NA); congruence].
  rewrite B in E; [congruence|]. right. intros r U. exact (H s t lat vs r R Ac U).
Qed.
End One.

(** ** The period *)
Lemma last_nth {A} (l : list A) a : nth_error (a :: l) (length l) = Some (last (a :: l) a).
Proof.
  destruct (exists_last (l := a :: l) ltac:(discriminate)) as (m & x & E). rewrite E, last_last. assert (L : length l = length m) by (apply (f_equal (@length _)) in E; rewrite app_length in E; cbn in E; lia).
  rewrite L, nth_error_app2 by lia. rewrite Nat.sub_diag. reflexivity.
Qed.
Lemma load_window_covers index max_sdiff s e : time_sorted index -> load_window index max_sdiff = Ok (s, e) -> 
  forall k t, (k < length index)%nat -> Z.abs (t - tm index (Z.of_nat k)) <= max_sdiff * 1000000 -> s <= t <= e.
Proof.
  intros S H k t L N. destruct index as [|t0 index]; [discriminate|]. unfold load_window in H.
  assert (E1 : tm (t0 :: index) 0 = t0) by reflexivity.
  assert (E2 : tm (t0 :: index) (Z.of_nat (length index)) = last (t0 :: index) t0) by (apply nth_tm; rewrite Nat2Z.id; apply last_nth).
  pose proof (S 0 (Z.of_nat k) ltac:(lia) ltac:(unfold zlen; cbn [length] in *; lia)) as A. pose proof (S (Z.of_nat k) (Z.of_nat (length index)) ltac:(cbn [length] in *; lia) ltac:(unfold zlen; cbn [length] in *; lia)) as B.
  rewrite E1 in A. rewrite E2 in B. set (x := last (t0 :: index) t0) in *. assert (s = t0 - (max_sdiff + 1) * 1000000) by congruence. assert (e = x + (max_sdiff + 1) * 1000000) by congruence. lia.
Qed.
Lemma window_loads {F K} cols fmt s e inst (noargs : K) file (w : loaded F K) : is_table cols file ->
  load cols fmt None None inst GNone GNone noargs file = Ok (Some w) -> exists d : loaded F K, load cols fmt (Some s) (Some e) inst GNone GNone noargs file = Ok (Some d).
Proof.
  intros T Wl. pose proof (load_spec _ _ _ _ _ _ _ _ _ _ T Wl) as (L1 & times & idxw & A & _ & _ & _ & _ & RF & _ & _ & _).
  cbn in RF. destruct RF as (f & Q & _).
  pose proof (keep_selected (Some s) (Some e) times) as SEL.
  set (i := map fst (keep (Some s) (Some e) 0 times)) in *.
  apply (load_total cols fmt (Some s) (Some e) inst GNone GNone noargs file times i (repeat f (length i)) (repeat noargs (length i)) T L1 A).
  - destruct (time_flag_spec cols) as (F1 & F2 & F3). unfold load in Wl. destruct (time_flag cols) as [flag|] eqn:TF; [|discriminate]. destruct flag; [left; apply F1; reflexivity|right; apply F2; reflexivity].
  - exact SEL.
  - cbn. eauto.
  - cbn. eauto.
Qed.

(** ** Names *)
Lemma add_new_in n l x : In x (add_new n l) <-> In x l \/ x = n.
Proof.
  unfold add_new. destruct (member n l) eqn:M; [apply member_spec in M; split; [auto|intros [H| ->]; assumption]|]. rewrite in_app_iff. cbn. intuition congruence.
Qed.
Lemma add_new_nodup n l : NoDup l -> NoDup (add_new n l).
Proof.
  intros N. unfold add_new. destruct (member n l) eqn:M; [exact N|]. apply (Permutation_NoDup (Permutation_cons_append l n)). constructor; [|exact N]. intros I. apply member_spec in I. congruence.
Qed.
Lemma add_vars_in vars names : forall l x, In x (add_vars vars names l) <-> In x l \/ (In x names /\ In x vars).
Proof.
  induction names as [|n names IH]; intros l x; cbn [add_vars fold_left]; [cbn; tauto|]. change (fold_left _ names ?z) with (add_vars vars names z). rewrite IH. destruct (member n vars) eqn:M.
  - apply member_spec in M. rewrite add_new_in. cbn [In]. split; [intros [[H| ->]|H]; tauto|intros [H|[[<-|H] V]]; tauto].
  - assert (NV : ~ In n vars) by (intros I; apply member_spec in I; congruence). cbn [In]. split; [tauto|]. intros [H|[[<-|H] V]]; tauto.
Qed.
Lemma add_vars_nodup vars names : forall l, NoDup l -> NoDup (add_vars vars names l).
Proof.
  induction names as [|n names IH]; intros l N; cbn [add_vars fold_left]; [exact N|]. change (fold_left _ names ?z) with (add_vars vars names z). apply IH. destruct (member n vars); [apply add_new_nodup|]; exact N.
Qed.
Lemma vector_names_ok vars own : forall l comps l' comps', vector_names vars own l comps = Ok (l', comps') ->
  (forall x, In x l' <-> In x l \/ exists k, In (k, x) own /\ In k components) /\ (NoDup l -> NoDup l') /\ (forall k x, In (k, x) own -> In k components -> In x vars) /\
  comps' = comps ++ map snd (filter (fun p => member (fst p) components) own).
Proof.
  induction own as [|[k v] own IH]; intros l comps l' comps' H; cbn [vector_names] in H.
  - injection H as <- <-. split; [intros x; split; [auto|intros [A|(k & [] & _)]; exact A]|]. split; [auto|]. split; [intros k x []|]. rewrite app_nil_r. reflexivity.
  - cbn [filter map fst snd]. destruct (member k components) eqn:C.
    + destruct (member v vars) eqn:MV; [|discriminate]. destruct (IH _ _ _ _ H) as (A & B & D & E). apply member_spec in C. apply member_spec in MV. split; [|split; [|split]].
      * intros x. rewrite A, add_new_in. split; [intros [[X| ->]|(k' & X & Y)]; [left; exact X|right; exists k; split; [left; reflexivity|exact C]|right; exists k'; split; [right; exact X|exact Y]]|].
        intros [X|(k' & [X|X] & Y)]; [tauto|injection X as <- <-; tauto|right; eauto].
      * intros N. apply B. apply add_new_nodup. exact N.
      * intros k' x [X|X] Y; [injection X as <- <-; exact MV|eauto].
      * rewrite E. cbn [map snd]. rewrite <- app_assoc. reflexivity.
    + assert (NC : ~ In k components) by (intros I; apply member_spec in I; congruence). destruct (IH _ _ _ _ H) as (A & B & D & E). split; [|split; [|split]].
      * intros x. rewrite A. split; [intros [X|(k' & X & Y)]; [tauto|right; exists k'; split; [right; exact X|exact Y]]|]. intros [X|(k' & [X|X] & Y)]; [tauto|injection X as <- <-; contradiction|right; eauto].
      * exact B.
      * intros k' x [X|X] Y; [injection X as <- <-; contradiction|eauto].
      * exact E.
Qed.
Lemma vector_names_err vars own : forall l comps, (forall k x, In (k, x) own -> In k components -> In x vars) -> exists l' comps', vector_names vars own l comps = Ok (l', comps').
Proof.
  induction own as [|[k v] own IH]; intros l comps H; cbn [vector_names]; [eauto|]. destruct (member k components) eqn:C; [|apply IH; intros k' x I; apply (H k' x); right; exact I].
  apply member_spec in C. rewrite (proj2 (member_spec v vars) (H k v (or_introl eq_refl) C)). apply IH. intros k' x I. apply (H k' x). right. exact I.
Qed.
Lemma vector_names_value vars own : forall l comps e, vector_names vars own l comps = Err e -> e = ValueError.
Proof.
  induction own as [|[k v] own IH]; intros l comps e H; cbn [vector_names] in H; [discriminate|]. destruct (member k components); [destruct (member v vars); [eauto|congruence]|eauto].
Qed.
(** [x] is a component of one of the vectors. *)
Definition part_of_vector (vecs : list (str * list (str * str))) (x : str) : Prop := exists n own k, In (n, own) vecs /\ In (k, x) own /\ In k components.
Lemma all_vectors_ok b vars vecs : forall l outs attrs l' outs' attrs', all_vectors b vars vecs l outs attrs = Ok (l', outs', attrs') ->
  (forall x, In x l' <-> In x l \/ part_of_vector vecs x) /\ (NoDup l -> NoDup l') /\ (forall x, part_of_vector vecs x -> In x vars) /\
  (forall x, In x outs' <-> In x outs \/ In x (map (fun v => out_of b (fst v)) vecs)) /\ (NoDup outs -> NoDup outs').
Proof.
  induction vecs as [|[n own] vecs IH]; intros l outs attrs l' outs' attrs' H; cbn [all_vectors] in H.
  - injection H as <- <- <-. split; [intros x; split; [auto|intros [A|(? & ? & ? & [] & _)]; exact A]|]. split; [auto|]. split; [intros x (? & ? & ? & [] & _)|]. split; [cbn; tauto|auto].
  - destruct (vector_names vars own l []) as [[l1 comps]|] eqn:V; [|discriminate]. cbn [bind] in H. destruct (vector_names_ok _ _ _ _ _ _ V) as (A & B & C & _).
    destruct (IH _ _ _ _ _ _ H) as (A' & B' & C' & D' & E').
    assert (PV : forall x, part_of_vector ((n, own) :: vecs) x <-> (exists k, In (k, x) own /\ In k components) \/ part_of_vector vecs x).
    { intros x. split.
      - intros (n' & own' & k & [X|X] & Y & Z); [injection X as <- <-; left; eauto|right; exists n', own', k; auto].
      - intros [(k & Y & Z)|(n' & own' & k & X & Y & Z)]; [exists n, own, k; split; [left; reflexivity|auto]|exists n', own', k; split; [right; exact X|auto]]. }
    split; [intros x; rewrite A', A, PV; tauto|]. split; [auto|]. split; [intros x X; apply PV in X; destruct X as [(k & Y & Z)|X]; [eauto|auto]|].
    split; [intros x; rewrite D', add_new_in; cbn [map fst In]; split; [intros [[X| ->]|X]; auto|intros [X|[<-|X]]; auto]|]. intros N. apply E'. apply add_new_nodup. exact N.
Qed.
Lemma all_vectors_err b vars vecs : forall l outs attrs, (forall x, part_of_vector vecs x -> In x vars) -> exists r, all_vectors b vars vecs l outs attrs = Ok r.
Proof.
  induction vecs as [|[n own] vecs IH]; intros l outs attrs H; cbn [all_vectors]; [eauto|].
  destruct (vector_names_err vars own l []) as (l' & comps & ->); [intros k x I C; apply H; exists n, own, k; split; [left; reflexivity|auto]|]. cbn [bind]. apply IH.
  intros x (n' & own' & k & X & Y & Z). apply H. exists n', own', k. split; [right; exact X|auto].
Qed.
Lemma all_vectors_value b vars vecs : forall l outs attrs e, all_vectors b vars vecs l outs attrs = Err e -> e = ValueError.
Proof.
  induction vecs as [|[n own] vecs IH]; intros l outs attrs e H; cbn [all_vectors] in H; [discriminate|]. destruct (vector_names vars own l []) as [[l1 comps]|e'] eqn:V; cbn [bind] in H; [eauto|].
  injection H as <-. eapply vector_names_value. exact V.
Qed.
Lemma all_vectors_attrs b vars vecs : forall l outs attrs l' outs' attrs', all_vectors b vars vecs l outs attrs = Ok (l', outs', attrs') ->
  forall o c, In (o, c) attrs' <-> In (o, c) attrs \/ (exists n own, In (n, own) vecs /\ o = out_of b n /\ c = map snd (filter (fun p => member (fst p) components) own) /\ c <> []).
Proof.
  induction vecs as [|[n own] vecs IH]; intros l outs attrs l' outs' attrs' H o c; cbn [all_vectors] in H.
  - injection H as <- <- <-. split; [auto|intros [A|(? & ? & [] & _)]; exact A].
  - destruct (vector_names vars own l []) as [[l1 comps]|] eqn:V; [|discriminate]. cbn [bind] in H. destruct (vector_names_ok _ _ _ _ _ _ V) as (_ & _ & _ & CE). cbn [app] in CE.
    rewrite (IH _ _ _ _ _ _ H o c). clear IH H.
    assert (Q : In (o, c) (match comps with [] => attrs | _ :: _ => attrs ++ [(out_of b n, comps)] end) <-> In (o, c) attrs \/ (o = out_of b n /\ c = comps /\ c <> [])).
    { destruct comps as [|a comps]; [split; [auto|intros [X|(_ & -> & X)]; [exact X|contradiction]]|]. rewrite in_app_iff. cbn [In]. split.
      - intros [X|[X|[]]]; [auto|]. right. split; [congruence|]. split; [congruence|]. intros ->. discriminate X.
      - intros [X|(-> & -> & _)]; auto. }
    rewrite Q. split.
    + intros [[X|(-> & -> & N)]|(n' & own' & I & X)]; [auto|right; exists n, own; split; [left; reflexivity|]; rewrite CE in *; auto|right; exists n', own'; split; [right; exact I|exact X]].
    + intros [X|(n' & own' & [I|I] & E1 & E2 & N)]; [auto|injection I as <- <-; left; right; rewrite CE; auto|right; exists n', own'; auto].
Qed.
Lemma out_of_inj b n m : out_of b n = out_of b m -> n = m.
Proof. unfold out_of. apply app_inv_tail. Qed.
