(** Proofs about supermag2ascii_ocb. *)
From Coq Require Import String Ascii ZArith QArith Qabs List Bool Lia Lqa Sorted.
From Verif Require Import PyBase TimeModel TimeSpec TextSpec FilesModel SmagModel SmagSpec CycleModel CycleSpec CycleProofs DriverModel DriverSpec DriverProofs
  PysatModel GeneralProofs LoadProofs PropertiesCycle PropertiesSmag OutputModel OutputSpec OutputProofs.
Import ListNotations.
Open Scope string_scope.
Open Scope list_scope.
Open Scope Z_scope.

(** ** Lists *)
Lemma mapE_ok {A B} (f : A -> res B) l m : Forall2 (fun a b => f a = Ok b) l m -> mapE f l = Ok m.
Proof. induction 1 as [|a b l m E F IH]; [reflexivity|]. cbn [mapE]. rewrite E, IH. reflexivity. Qed.
Lemma mapE_cells {A B C} (f : B -> res C) (P : A -> B -> Prop) (Q : A -> C -> Prop) D cells :
  (forall a c, P a c -> exists x, f c = Ok x /\ Q a x) -> Forall2 P D cells -> exists xs, mapE f cells = Ok xs /\ Forall2 Q D xs.
Proof.
  intros K. induction 1 as [|a c D cells E F IH]; [exists []; split; [reflexivity|constructor]|]. destruct IH as (xs & E1 & F1). destruct (K a c E) as (x & E2 & Q2).
  exists (x :: xs). cbn [mapE]. rewrite E2, E1. split; [reflexivity|constructor; assumption].
Qed.
Lemma mapE_seq {A B} (f : Z -> res B) (R : A -> B -> Prop) D : forall k,
  (forall j a, nth_error D j = Some a -> exists b, f (Z.of_nat (k + j)) = Ok b /\ R a b) ->
  exists bs, mapE f (map Z.of_nat (seq k (length D))) = Ok bs /\ Forall2 R D bs.
Proof.
  induction D as [|a D IH]; intros k H; [exists []; split; [reflexivity|constructor]|].
  destruct (H 0%nat a eq_refl) as (b & E & Rb). rewrite Nat.add_0_r in E. destruct (IH (S k)) as (bs & E1 & F1).
  { intros j a' N. destruct (H (S j) a' N) as (b' & E' & R'). exists b'. split; [|exact R']. rewrite <- E'. do 2 f_equal. lia. }
  exists (b :: bs). cbn [length seq map mapE]. rewrite E, E1. split; [reflexivity|constructor; assumption].
Qed.
Lemma F2_nth {A B} (R : A -> B -> Prop) l m j a : Forall2 R l m -> nth_error l j = Some a -> exists b, nth_error m j = Some b /\ R a b.
Proof. intros F. revert j. induction F as [|x y l m E F IH]; intros [|j] N; try discriminate; [injection N as <-; exists y; split; [reflexivity|exact E]|exact (IH j N)]. Qed.
Lemma F2_nth_r {A B} (R : A -> B -> Prop) l m j b : Forall2 R l m -> nth_error m j = Some b -> exists a, nth_error l j = Some a /\ R a b.
Proof. intros F. revert j. induction F as [|x y l m E F IH]; intros [|j] N; try discriminate; [injection N as <-; exists x; split; [reflexivity|exact E]|exact (IH j N)]. Qed.

(** ** The rows of a loaded table *)
Section Rows.
Context (pf : str -> res num) (nanfill : num -> num).
Lemma instant_fun (b : block num) t t' : instant b t -> instant b t' -> t = t'.
Proof. intros (n & C & _ & _ & _ & _ & ->) (n' & C' & _ & _ & _ & _ & ->). apply TimeProofs.calendar_day_spec in C. apply TimeProofs.calendar_day_spec in C'. destruct C as (_ & _ & _ & ->), C' as (_ & _ & _ & ->). reflexivity. Qed.
Definition columns_ok (D : list (block num * station num)) (t : table num) : Prop :=
  forall k, In k columns -> exists cells, lookup (s2l k) t = Some cells /\ Forall2 (fun p c => value nanfill k (fst p) (snd p) c) D cells.
Ltac which P := unfold value in P; repeat match type of P with _ \/ _ => destruct P as [P|P] end; destruct P as [A P]; try discriminate A; clear A.
Ltac one t K k := destruct (K k ltac:(cbn; intuition)) as (cells & L & F).
Lemma times_ok D t : columns_ok D t -> exists ts, times t "DATETIME" = Ok ts /\ Forall2 (fun p t => instant (fst p) t) D ts.
Proof. intros K. one t K "DATETIME". unfold times, column. rewrite L. cbn [bind]. eapply mapE_cells; [|exact F]. intros p c P. which P. destruct P as (x & I & ->). exists x. split; [reflexivity|exact I]. Qed.
Lemma ids_ok D t : columns_ok D t -> exists ts, texts t "STID" = Ok ts /\ Forall2 (fun p s => s = st_id (snd p)) D ts.
Proof. intros K. one t K "STID". unfold texts, column. rewrite L. cbn [bind]. eapply mapE_cells; [|exact F]. intros p c P. which P. subst c. eexists. split; reflexivity. Qed.
Lemma index_ok D t k : columns_ok D t -> k = "SML" \/ k = "SMU" -> exists ts, ints t k = Ok ts /\ Forall2 (fun p z => index_value (s2l k) (b_index (fst p)) z) D ts.
Proof. intros K [->| ->]; [one t K "SML"|one t K "SMU"]; unfold ints, column; rewrite L; cbn [bind]; (eapply mapE_cells; [|exact F]); intros p c P; which P; destruct P as (z & I & ->); exists z; (split; [reflexivity|exact I]). Qed.
Lemma float_ok D t k (g : station num -> num) : columns_ok D t -> In k columns ->
  (forall p c, value nanfill k (fst p) (snd p) c -> c = CF (g (snd p))) -> exists ts, floats t k = Ok ts /\ Forall2 (fun p x => x = g (snd p)) D ts.
Proof. intros K IN G. destruct (K k IN) as (cells & L & F). unfold floats, column. rewrite L. cbn [bind]. eapply mapE_cells; [|exact F]. intros p c P. rewrite (G p c P). eexists. split; reflexivity. Qed.
Lemma rows_ok D t : columns_ok D t -> exists rows, rows_of t = Ok rows /\ Forall2 (measured nanfill) D rows.
Proof.
  intros K. destruct (times_ok D t K) as (ts & E1 & F1). destruct (ids_ok D t K) as (is & E2 & F2).
  destruct (index_ok D t "SML" K (or_introl eq_refl)) as (sl & E3 & F3). destruct (index_ok D t "SMU" K (or_intror eq_refl)) as (su & E4 & F4).
  destruct (float_ok D t "SZA" (fun s => nanfill (st_sza s)) K) as (sz & E5 & F5); [cbn; intuition|intros p c P; which P; exact P|].
  destruct (float_ok D t "MLAT" (fun s => st_mlat s) K) as (la & E6 & F6); [cbn; intuition|intros p c P; which P; exact P|].
  destruct (float_ok D t "MLT" (fun s => nanfill (st_mlt s)) K) as (lt & E7 & F7); [cbn; intuition|intros p c P; which P; exact P|].
  destruct (float_ok D t "BN" (fun s => nanfill (st_bn s)) K) as (bn & E8 & F8); [cbn; intuition|intros p c P; which P; exact P|].
  destruct (float_ok D t "BE" (fun s => nanfill (st_be s)) K) as (be & E9 & F9); [cbn; intuition|intros p c P; which P; exact P|].
  destruct (float_ok D t "BZ" (fun s => nanfill (st_bz s)) K) as (bz & E10 & F10); [cbn; intuition|intros p c P; which P; exact P|].
  unfold rows_of. rewrite E1, E2, E3, E4, E5, E6, E7, E8, E9, E10. cbn [bind]. rewrite <- (F2_length _ _ _ F1).
  apply mapE_seq. intros j p N. cbn [plus].
  destruct (F2_nth _ _ _ _ _ F1 N) as (x1 & N1 & I1). destruct (F2_nth _ _ _ _ _ F2 N) as (x2 & N2 & I2). destruct (F2_nth _ _ _ _ _ F3 N) as (x3 & N3 & I3).
  destruct (F2_nth _ _ _ _ _ F4 N) as (x4 & N4 & I4). destruct (F2_nth _ _ _ _ _ F5 N) as (x5 & N5 & I5). destruct (F2_nth _ _ _ _ _ F6 N) as (x6 & N6 & I6).
  destruct (F2_nth _ _ _ _ _ F7 N) as (x7 & N7 & I7). destruct (F2_nth _ _ _ _ _ F8 N) as (x8 & N8 & I8). destruct (F2_nth _ _ _ _ _ F9 N) as (x9 & N9 & I9).
  destruct (F2_nth _ _ _ _ _ F10 N) as (x10 & N10 & I10).
  rewrite (getE_nat _ _ _ N1), (getE_nat _ _ _ N2), (getE_nat _ _ _ N3), (getE_nat _ _ _ N4), (getE_nat _ _ _ N5), (getE_nat _ _ _ N6), (getE_nat _ _ _ N7), (getE_nat _ _ _ N8), (getE_nat _ _ _ N9), (getE_nat _ _ _ N10).
  cbn [bind]. eexists. split; [reflexivity|]. destruct p as [b s]. cbn [fst snd] in *. unfold measured. cbn. auto 12.
Qed.

(** ** Usable stations *)
Lemma nfinite_spec x : nfinite x = true <-> finite x.
Proof. destruct x as [| |q|]; cbn; split; intros H; try discriminate; try (destruct H; discriminate); try reflexivity. exists q. reflexivity. Qed.
Lemma side_spec h x : h = 1 \/ h = -1 -> (nfinite x && neqb (nsign x) (Fin (inject_Z h)) = true <-> on_side h x).
Proof.
  intros HH. unfold on_side. destruct x as [| |q|]; cbn [nfinite andb]; try (split; [discriminate|intros (q0 & E & _); discriminate]).
  cbn [nsign]. destruct (Qeq_bool q 0) eqn:E; [|destruct (Qle_bool 0 q) eqn:E2].
  - apply Qeq_bool_iff in E. split; [destruct HH as [->| ->]; intros C; discriminate C|]. intros (q0 & E0 & [[_ L]|[_ L]]); injection E0 as <-; lra.
  - apply Qle_bool_iff in E2. assert (L : (0 < q)%Q). { apply Qnot_le_lt. intros C. assert (X : (q == 0)%Q) by lra. apply Qeq_bool_iff in X. congruence. }
    split; [destruct HH as [->| ->]; intros C; [exists q; split; [reflexivity|left; split; [reflexivity|exact L]]|discriminate C]|].
    intros (q0 & E0 & [[-> _]|[_ L']]); [reflexivity|]. injection E0 as <-. lra.
  - assert (L : (q < 0)%Q). { apply Qnot_le_lt. intros C. apply Qle_bool_iff in C. congruence. }
    split; [destruct HH as [->| ->]; intros C; [discriminate C|exists q; split; [reflexivity|right; split; [reflexivity|exact L]]]|].
    intros (q0 & E0 & [[_ L']|[-> _]]); [|reflexivity]. injection E0 as <-. lra.
Qed.
Lemma usable_spec h p r : h = 1 \/ h = -1 -> measured nanfill p r -> (usable (Fin (inject_Z h)) r = true <-> usable_station nanfill h p).
Proof.
  intros HH. destruct p as [b s]. intros (_ & _ & _ & _ & _ & LA & LT & BN & BE & BZ). unfold usable, usable_station. cbn [snd]. rewrite LA, LT, BN, BE, BZ.
  rewrite <- (side_spec h (st_mlat s) HH), <- !nfinite_spec. rewrite !andb_true_iff. tauto.
Qed.
Lemma selected_rows h D U rows : h = 1 \/ h = -1 -> selected (usable_station nanfill h) D U -> Forall2 (measured nanfill) D rows ->
  Forall2 (measured nanfill) U (filter (usable (Fin (inject_Z h))) rows).
Proof.
  intros HH S. revert rows. induction S as [|a l m P S IH|a l m P S IH]; intros rows F; inversion F as [|x y l' m' E F']; subst; [constructor| |]; cbn [filter].
  - rewrite (proj2 (usable_spec h a y HH E) P). constructor; [exact E|apply IH; exact F'].
  - destruct (usable _ y) eqn:EU; [exfalso; exact (P (proj1 (usable_spec h a y HH E) EU))|apply IH; exact F'].
Qed.
Lemma rows_times U sel : Forall2 (measured nanfill) U sel -> Forall2 (fun p t => instant (fst p) t) U (map m_time sel).
Proof. induction 1 as [|p r U sel M F IH]; [constructor|]. constructor; [|exact IH]. destruct p as [b s]. destruct M as [M _]. exact M. Qed.

(** ** Sorted times *)
Lemma selected_sub {A} (P : A -> Prop) D U : selected P D U -> forall i j a b, (i < j)%nat -> nth_error U i = Some a -> nth_error U j = Some b ->
  exists i' j', (i' < j')%nat /\ nth_error D i' = Some a /\ nth_error D j' = Some b.
Proof.
  induction 1 as [|x l m HP SL IH|x l m HP SL IH]; intros i j a b L NA NB.
  - destruct i; discriminate.
  - destruct j as [|j]; [lia|]. destruct i as [|i].
    + injection NA as <-. assert (I : In b l). { clear IH L. revert j NB. induction SL as [|y l m Q SL IH|y l m Q SL IH]; intros j NB; [destruct j; discriminate| |right; exact (IH j NB)]. destruct j as [|j]; [injection NB as <-; left; reflexivity|right; exact (IH j NB)]. }
      apply In_nth_error in I. destruct I as [n N]. exists 0%nat, (S n). split; [lia|]. split; [reflexivity|exact N].
    + destruct (IH i j a b ltac:(lia) NA NB) as (i' & j' & L' & A1 & A2). exists (S i'), (S j'). split; [lia|]. split; assumption.
  - destruct (IH i j a b L NA NB) as (i' & j' & L' & A1 & A2). exists (S i'), (S j'). split; [lia|]. split; assumption.
Qed.
Lemma stations_order (bs : list (block num)) : forall i j p q, (i <= j)%nat -> nth_error (stations_of bs) i = Some p -> nth_error (stations_of bs) j = Some q ->
  exists i' j', (i' <= j')%nat /\ nth_error bs i' = Some (fst p) /\ nth_error bs j' = Some (fst q).
Proof.
  unfold stations_of. induction bs as [|b bs IH]; intros i j p q L NP NQ; [destruct i; discriminate|]. cbn [flat_map] in NP, NQ.
  set (l := map (fun s : station num => (b, s)) (b_st b)) in *.
  assert (FB : forall k x, nth_error l k = Some x -> fst x = b). { intros k x N. apply nth_error_In in N. unfold l in N. apply in_map_iff in N. destruct N as (s & <- & _). reflexivity. }
  destruct (Nat.lt_ge_cases i (length l)) as [Li|Li].
  - rewrite nth_error_app1 in NP by exact Li. destruct (Nat.lt_ge_cases j (length l)) as [Lj|Lj].
    + rewrite nth_error_app1 in NQ by exact Lj. exists 0%nat, 0%nat. rewrite (FB _ _ NP), (FB _ _ NQ). split; [lia|]. split; reflexivity.
    + rewrite nth_error_app2 in NQ by exact Lj. destruct (IH (j - length l)%nat (j - length l)%nat q q ltac:(lia) NQ NQ) as (i' & j' & _ & _ & N).
      exists 0%nat, (S j'). rewrite (FB _ _ NP). split; [lia|]. split; [reflexivity|exact N].
  - rewrite nth_error_app2 in NP by exact Li. rewrite nth_error_app2 in NQ by lia.
    destruct (IH (i - length l)%nat (j - length l)%nat p q ltac:(lia) NP NQ) as (i' & j' & L' & A1 & A2). exists (S i'), (S j'). split; [lia|]. split; assumption.
Qed.
Lemma tm_nth (T : list Z) i x : nth_error T i = Some x -> tm T (Z.of_nat i) = x.
Proof. intros N. unfold tm. rewrite Nat2Z.id. apply nth_error_nth. exact N. Qed.
Lemma nth_in_range {A} (l : list A) i : (i < length l)%nat -> exists a, nth_error l i = Some a.
Proof. intros H. destruct (nth_error l i) as [a|] eqn:E; [exists a; reflexivity|]. apply nth_error_None in E. lia. Qed.
Lemma times_sorted P bs U T : chronological bs -> selected P (stations_of bs) U -> Forall2 (fun p t => instant (fst p) t) U T -> time_sorted T.
Proof.
  intros CH S F i j [I1 I2] J. destruct (Z.eq_dec i j) as [->|NE]; [lia|]. unfold zlen in J.
  destruct (nth_in_range T (Z.to_nat i) ltac:(lia)) as (x & NX). destruct (nth_in_range T (Z.to_nat j) ltac:(lia)) as (y & NY).
  destruct (F2_nth_r _ _ _ _ _ F NX) as (p & NP & IP). destruct (F2_nth_r _ _ _ _ _ F NY) as (q & NQ & IQ).
  destruct (selected_sub P _ _ S (Z.to_nat i) (Z.to_nat j) p q ltac:(lia) NP NQ) as (i' & j' & L & A1 & A2). destruct (stations_order bs i' j' p q ltac:(lia) A1 A2) as (i2 & j2 & L2 & B1 & B2).
  replace i with (Z.of_nat (Z.to_nat i)) by lia. replace j with (Z.of_nat (Z.to_nat j)) by lia. rewrite (tm_nth _ _ _ NX), (tm_nth _ _ _ NY).
  exact (CH i2 j2 (fst p) (fst q) x y L2 B1 B2 IP IQ).
Qed.

(** ** The number of stations at a time *)
Lemma same_time_count dat i d : py_get dat i = Some d -> zlen (same_time dat i) = times_at dat d.
Proof.
  intros G. unfold same_time, times_at. rewrite G.
  assert (K : forall l k, (forall j x, nth_error l j = Some x -> py_get dat (Z.of_nat (k + j)) = Some x) ->
    length (filter (fun k0 => match py_get dat k0 with Some d' => d' =? d | None => false end) (map Z.of_nat (seq k (length l)))) = length (filter (Z.eqb d) l)).
  { induction l as [|x l IH]; intros k H; [reflexivity|]. cbn [length seq map filter]. pose proof (H 0%nat x eq_refl) as H0. rewrite Nat.add_0_r in H0. rewrite H0.
    rewrite (Z.eqb_sym x d). assert (R := IH (S k)). destruct (d =? x); cbn [length]; rewrite R; try reflexivity; intros j y N; rewrite <- (H (S j) y N); do 2 f_equal; lia. }
  unfold zlen. f_equal. apply (K dat 0%nat). intros j x N. cbn [plus]. unfold py_get.
  assert (J : (j < length dat)%nat) by (apply nth_error_Some; rewrite N; discriminate).
  replace ((0 <=? Z.of_nat j) && (Z.of_nat j <? Z.of_nat (length dat))) with true by (symmetry; apply andb_true_iff; split; [apply Z.leb_le; lia|apply Z.ltb_lt; lia]).
  rewrite Nat2Z.id. exact N.
Qed.
End Rows.
