(** Texts of times, and counting lines. *)
From Coq Require Import String Ascii ZArith QArith Qabs List Bool Lia Lqa Sorted.
From Verif Require Import PyBase TimeModel TimeSpec TimeProofs TimeProofs3 TextSpec TextProofs FilesModel SmagModel SmagSpec CycleModel CycleSpec CycleProofs DriverModel DriverSpec DriverProofs
  OutputModel OutputSpec OutputProofs OutputProofs2 OutputProofs3.
Import ListNotations.
Open Scope string_scope.
Open Scope list_scope.
Open Scope Z_scope.

Lemma calendar_unique y m d y' m' d' n : calendar_day y m d n -> calendar_day y' m' d' n -> y = y' /\ m = m' /\ d = d'.
Proof.
  intros C C'. apply calendar_day_spec in C. apply calendar_day_spec in C'. destruct C as (Y & M & D & E), C' as (Y' & M' & D' & E').
  assert (K : forall y m d, 1 <= m <= 12 -> 1 <= d <= month_len y m -> 0 <= days_before_month y m /\ days_before_month y m + d <= year_len y).
  { clear. intros y m d M D. assert (MM : m = 1 \/ m = 2 \/ m = 3 \/ m = 4 \/ m = 5 \/ m = 6 \/ m = 7 \/ m = 8 \/ m = 9 \/ m = 10 \/ m = 11 \/ m = 12) by lia.
    revert D. destruct MM as [->|[->|[->|[->|[->|[->|[->|[->|[->|[->|[->| ->]]]]]]]]]]]; cbv -[is_leap Z.le Z.add]; destruct (is_leap y); lia. }
  assert (YY : y = y').
  { unfold ordinal in *. destruct (K y m d M D) as [K1 K2]. destruct (K y' m' d' M' D') as [K3 K4]. pose proof (days_before_next y). pose proof (days_before_next y').
    destruct (Z.lt_trichotomy y y') as [L|[L|L]]; [|exact L|].
    - pose proof (dby_mono (y + 1) y' ltac:(lia)). lia.
    - pose proof (dby_mono (y' + 1) y ltac:(lia)). lia. }
  subst y'. split; [reflexivity|]. assert (EE : days_before_month y m + d = days_before_month y m' + d') by (unfold ordinal in *; lia). clear - M M' D D' EE.
  assert (MM : m = 1 \/ m = 2 \/ m = 3 \/ m = 4 \/ m = 5 \/ m = 6 \/ m = 7 \/ m = 8 \/ m = 9 \/ m = 10 \/ m = 11 \/ m = 12) by lia.
  assert (MM' : m' = 1 \/ m' = 2 \/ m' = 3 \/ m' = 4 \/ m' = 5 \/ m' = 6 \/ m' = 7 \/ m' = 8 \/ m' = 9 \/ m' = 10 \/ m' = 11 \/ m' = 12) by lia. clear M M'.
  revert EE D D'. destruct MM as [->|[->|[->|[->|[->|[->|[->|[->|[->|[->|[->| ->]]]]]]]]]]], MM' as [->|[->|[->|[->|[->|[->|[->|[->|[->|[->|[->| ->]]]]]]]]]]];
    cbv -[is_leap Z.le Z.add]; destruct (is_leap y); lia.
Qed.
Lemma digit_inj c d n : is_digit_of c n -> is_digit_of d n -> c = d.
Proof. intros [_ A] [_ B]. apply code_inj. lia. Qed.
Lemma digit_fun c n m : is_digit_of c n -> is_digit_of c m -> n = m.
Proof. intros [_ A] [_ B]. lia. Qed.
Lemma date2_text s s' v : date2 s v -> date2 s' v -> s = s'.
Proof.
  intros (c1 & c2 & a & b & -> & A & B & ->) (c1' & c2' & a' & b' & -> & A' & B' & E). pose proof (proj1 A). pose proof (proj1 B). pose proof (proj1 A'). pose proof (proj1 B').
  assert (a = a') by lia. assert (b = b') by lia. subst. rewrite (digit_inj _ _ _ A A'), (digit_inj _ _ _ B B'). reflexivity.
Qed.
Lemma date4_text s s' v : date4 s v -> date4 s' v -> s = s'.
Proof.
  intros (c1 & c2 & c3 & c4 & a & b & c & d & -> & A & B & C & D & ->) (c1' & c2' & c3' & c4' & a' & b' & c' & d' & -> & A' & B' & C' & D' & E).
  pose proof (proj1 A). pose proof (proj1 B). pose proof (proj1 C). pose proof (proj1 D). pose proof (proj1 A'). pose proof (proj1 B'). pose proof (proj1 C'). pose proof (proj1 D').
  assert (a = a') by lia. assert (b = b') by lia. assert (c = c') by lia. assert (d = d') by lia. subst. rewrite (digit_inj _ _ _ A A'), (digit_inj _ _ _ B B'), (digit_inj _ _ _ C C'), (digit_inj _ _ _ D D'). reflexivity.
Qed.
Lemma date2_fun s v v' : date2 s v -> date2 s v' -> v = v'.
Proof. intros (c1 & c2 & a & b & -> & A & B & ->) (c1' & c2' & a' & b' & E & A' & B' & ->). injection E as <- <-. rewrite (digit_fun _ _ _ A A'), (digit_fun _ _ _ B B'). reflexivity. Qed.
Lemma date4_fun s v v' : date4 s v -> date4 s v' -> v = v'.
Proof.
  intros (c1 & c2 & c3 & c4 & a & b & c & d & -> & A & B & C & D & ->) (c1' & c2' & c3' & c4' & a' & b' & c' & d' & E & A' & B' & C' & D' & ->). injection E as <- <- <- <-.
  rewrite (digit_fun _ _ _ A A'), (digit_fun _ _ _ B B'), (digit_fun _ _ _ C C'), (digit_fun _ _ _ D D'). reflexivity.
Qed.
Lemma date2_len s v : date2 s v -> length s = 2%nat.
Proof. intros (c1 & c2 & a & b & -> & _). reflexivity. Qed.
Lemma date4_len s v : date4 s v -> length s = 4%nat.
Proof. intros (c1 & c2 & c3 & c4 & a & b & c & d & -> & _). reflexivity. Qed.
Lemma app_same {A} (a b c d : list A) : length a = length c -> a ++ b = c ++ d -> a = c /\ b = d.
Proof. revert c. induction a as [|x a IH]; intros [|y c] L E; try discriminate; [split; [reflexivity|exact E]|]. injection E as -> E. injection L as L. destruct (IH c L E) as [-> ->]. split; reflexivity. Qed.
(** Two instants have the same text exactly when they are the same. *)
Lemma clock_text t date tod date' tod' : clock t date tod -> clock t date' tod' -> date = date' /\ tod = tod'.
Proof.
  intros (y & m & d & n & h & mi & sc & C & (sy & sm & sd & A1 & A2 & A3 & ->) & (sh & smi & ss & B1 & B2 & B3 & ->) & H1 & H2 & H3 & ->)
    (y' & m' & d' & n' & h' & mi' & sc' & C' & (sy' & sm' & sd' & A1' & A2' & A3' & ->) & (sh' & smi' & ss' & B1' & B2' & B3' & ->) & H1' & H2' & H3' & E).
  assert (EN : n = n' /\ h = h' /\ mi = mi' /\ sc = sc') by (unfold day_us, sec_us in E; lia). destruct EN as (<- & <- & <- & <-).
  destruct (calendar_unique _ _ _ _ _ _ _ C C') as (<- & <- & <-).
  rewrite (date4_text _ _ _ A1 A1'), (date2_text _ _ _ A2 A2'), (date2_text _ _ _ A3 A3'), (date2_text _ _ _ B1 B1'), (date2_text _ _ _ B2 B2'), (date2_text _ _ _ B3 B3'). split; reflexivity.
Qed.
Lemma clock_time t t' date tod : clock t date tod -> clock t' date tod -> t = t'.
Proof.
  intros (y & m & d & n & h & mi & sc & C & (sy & sm & sd & A1 & A2 & A3 & ->) & (sh & smi & ss & B1 & B2 & B3 & ->) & H1 & H2 & H3 & ->)
    (y' & m' & d' & n' & h' & mi' & sc' & C' & (sy' & sm' & sd' & A1' & A2' & A3' & E1) & (sh' & smi' & ss' & B1' & B2' & B3' & E2) & H1' & H2' & H3' & ->).
  apply app_same in E1; [|rewrite (date4_len _ _ A1), (date4_len _ _ A1'); reflexivity]. destruct E1 as [<- E1]. injection E1 as E1.
  apply app_same in E1; [|rewrite (date2_len _ _ A2), (date2_len _ _ A2'); reflexivity]. destruct E1 as [<- E1]. injection E1 as <-.
  apply app_same in E2; [|rewrite (date2_len _ _ B1), (date2_len _ _ B1'); reflexivity]. destruct E2 as [<- E2]. injection E2 as E2.
  apply app_same in E2; [|rewrite (date2_len _ _ B2), (date2_len _ _ B2'); reflexivity]. destruct E2 as [<- E2]. injection E2 as <-.
  rewrite (date4_fun _ _ _ A1 A1'), (date2_fun _ _ _ A2 A2'), (date2_fun _ _ _ A3 A3') in C. rewrite (date2_fun _ _ _ B1 B1'), (date2_fun _ _ _ B2 B2'), (date2_fun _ _ _ B3 B3').
  apply calendar_day_spec in C. apply calendar_day_spec in C'. destruct C as (_ & _ & _ & ->), C' as (_ & _ & _ & ->). reflexivity.
Qed.

(** ** Counting *)
Lemma sorted_same (l m : list Z) : StronglySorted Z.lt l -> StronglySorted Z.lt m -> (forall x, In x l <-> In x m) -> l = m.
Proof.
  revert m. induction l as [|a l IH]; intros m SL SM E.
  - destruct m as [|b m]; [reflexivity|]. destruct (proj2 (E b) (or_introl eq_refl)).
  - destruct m as [|b m]; [destruct (proj1 (E a) (or_introl eq_refl))|]. inversion SL as [|? ? SL' FL]; subst. inversion SM as [|? ? SM' FM]; subst. rewrite Forall_forall in FL, FM.
    assert (a = b). { destruct (proj1 (E a) (or_introl eq_refl)) as [->|I]; [reflexivity|]. destruct (proj2 (E b) (or_introl eq_refl)) as [->|J]; [reflexivity|]. pose proof (FL _ J). pose proof (FM _ I). lia. }
    subst b. f_equal. apply IH; [assumption|assumption|]. intros x. split; intros I.
    + destruct (proj1 (E x) (or_intror I)) as [<-|J]; [pose proof (FL _ I); lia|exact J].
    + destruct (proj2 (E x) (or_intror I)) as [<-|J]; [pose proof (FM _ I); lia|exact J].
Qed.
Lemma sorted_fst_filter (f : Z * Z -> bool) l : StronglySorted Z.lt (map fst l) -> StronglySorted Z.lt (map fst (filter f l)).
Proof.
  induction l as [|p l IH]; [constructor|]. cbn [map filter]. intros S. inversion S as [|? ? S' F]; subst. destruct (f p); [|exact (IH S')]. cbn [map]. constructor; [exact (IH S')|].
  rewrite Forall_forall in *. intros x I. apply F. apply in_map_iff in I. destruct I as (q & <- & I). apply filter_In in I. apply in_map. tauto.
Qed.
(** Measurements of one time are paired together or not at all. *)
Lemma pairs_count dtime T C tol l p : pairs_exactly dtime T C tol l -> In p l -> zlen (filter (fun q => tm T (fst q) =? tm T (fst p)) l) = times_at T (tm T (fst p)).
Proof.
  intros [SL E] I. destruct p as [i r]. cbn [fst] in *. pose proof (proj1 (E i r) I) as (R & W & CL).
  rewrite <- (same_time_count T i (tm T i)).
  - unfold zlen. f_equal. rewrite <- (map_length fst). f_equal. apply sorted_same; [apply sorted_fst_filter; exact SL|apply same_time_sorted|].
    intros k. rewrite (same_time_in T i k R). rewrite in_map_iff. split.
    + intros ([k' r'] & <- & J). apply filter_In in J. cbn [fst] in *. destruct J as [J EQ]. apply Z.eqb_eq in EQ. split; [|exact EQ]. apply E in J. tauto.
    + intros [RK EQ]. exists (k, r). split; [reflexivity|]. apply filter_In. cbn [fst]. split; [|apply Z.eqb_eq; exact EQ]. apply E. split; [exact RK|]. split; [unfold within in *; rewrite EQ; exact W|].
      apply (closest_same_time dtime T C k i r EQ). exact CL.
  - pose proof (getE_tm T i R) as G. unfold getE in G. destruct (py_get T i); [injection G as ->; reflexivity|discriminate].
Qed.
Lemma selected_count {A B} (R : A -> B -> Prop) (f : A -> bool) (P : B -> Prop) l m : Forall2 R l m -> (forall a b, R a b -> (f a = true <-> P b)) ->
  exists k, selected P m k /\ length k = length (filter f l).
Proof.
  intros F H. induction F as [|a b l m E F IH]; [exists []; split; [constructor|reflexivity]|]. destruct IH as (k & S & L). cbn [filter]. destruct (f a) eqn:FA.
  - exists (b :: k). split; [constructor; [apply (H _ _ E); exact FA|exact S]|]. cbn [length]. rewrite L. reflexivity.
  - exists k. split; [constructor; [intros P0; apply (H _ _ E) in P0; congruence|exact S]|exact L].
Qed.
