(** Proofs about loading and constructing boundaries. *)
From Coq Require Import String Reals ZArith QArith List Bool Sorted Lia.
From Verif Require Import PyBase PyString RangeModel CoordModel TimeModel CycleModel CycleSpec LoadModel LoadSpec.
Import ListNotations.
Open Scope list_scope.

Lemma str_in_spec x l : str_in x l = true <-> In x l.
Proof.
  unfold str_in. rewrite existsb_exists. split.
  - intros (y & I & E). apply String.eqb_eq in E. subst. exact I.
  - intros I. exists x. split; [exact I|apply String.eqb_refl].
Qed.

Lemma F2_length {A B} (R : A -> B -> Prop) l r : Forall2 R l r -> length l = length r.
Proof. induction 1; cbn; congruence. Qed.

Lemma F2_impl {A B} (P Q : A -> B -> Prop) l r : (forall a b, P a b -> Q a b) -> Forall2 P l r -> Forall2 Q l r.
Proof. intros I. induction 1; constructor; auto. Qed.

(** ** Columns *)
Lemma cell_of_entry cols row name c : NoDup cols -> cell_of cols row name = Some c <-> entry cols row name c.
Proof.
  revert row. induction cols as [|k cols IH]; intros row N.
  - cbn. split; [discriminate|]. intros ([|i] & A & _); discriminate.
  - inversion N as [|? ? NI N']; subst. destruct row as [|c0 row]; cbn.
    + split; [discriminate|]. intros ([|i] & _ & B); discriminate.
    + destruct (String.eqb_spec k name) as [->|E].
      * split.
        -- intros H. injection H as ->. exists O. auto.
        -- intros ([|i] & A & B); cbn in A, B; [congruence|]. exfalso. apply NI. eapply nth_error_In. exact A.
      * rewrite IH by exact N'. split.
        -- intros (i & A & B). exists (S i). auto.
        -- intros ([|i] & A & B); cbn in A, B; [congruence|]. exists i. auto.
Qed.
Lemma cell_of_total cols row name : length row = length cols -> In name cols -> exists c, cell_of cols row name = Some c.
Proof.
  revert row. induction cols as [|k cols IH]; intros row L I; [destruct I|]. destruct row as [|c row]; [discriminate|].
  cbn. destruct (String.eqb_spec k name) as [->|E]; [eauto|]. apply IH; [cbn in L; lia|]. destruct I; [contradiction|exact H].
Qed.
Lemma entry_unique cols row name c c' : NoDup cols -> entry cols row name c -> entry cols row name c' -> c = c'.
Proof. intros N A B. apply cell_of_entry in A; [|exact N]. apply cell_of_entry in B; [|exact N]. congruence. Qed.

(** ** Times *)
Lemma time_flag_spec cols :
  (time_flag cols = Some true <-> year_file cols) /\
  (time_flag cols = Some false <-> ~ year_file cols /\ date_file cols) /\
  (time_flag cols = None <-> ~ year_file cols /\ ~ date_file cols).
Proof.
  unfold time_flag, year_file, date_file. rewrite <- !str_in_spec.
  destruct (str_in "soy" cols), (str_in "year" cols), (str_in "date" cols), (str_in "time" cols); cbn; repeat split; intuition congruence.
Qed.
Lemma row_time_stamped cols fmt row t flag : NoDup cols -> time_flag cols = Some flag ->
  row_time flag cols fmt row = Ok t <-> stamped cols fmt row t.
Proof.
  intros N F. unfold row_time, stamped. destruct (time_flag_spec cols) as (F1 & F2 & F3). destruct flag.
  - pose proof (proj1 F1 F) as Y. split.
    + intros H. left. split; [exact Y|].
      destruct (cell_of cols row "year") as [[y| |]|] eqn:E1; try discriminate H.
      destruct (cell_of cols row "soy") as [[|[| |q|]|]|] eqn:E2; try discriminate H.
      exists y, q. rewrite <- !cell_of_entry by exact N. auto.
    + intros [(_ & y & q & A & B & C)|(NY & _)]; [|contradiction].
      rewrite <- cell_of_entry in A, B by exact N. rewrite A, B. exact C.
  - pose proof (proj1 F2 F) as [NY D]. split.
    + intros H. right. split; [exact NY|]. split; [exact D|].
      destruct (cell_of cols row "date") as [[| |d]|] eqn:E1; try discriminate H.
      destruct (cell_of cols row "time") as [[| |tod]|] eqn:E2; try discriminate H.
      exists d, tod. rewrite <- !cell_of_entry by exact N. auto.
    + intros [(Y & _)|(_ & _ & d & tod & A & B & C)]; [contradiction|].
      rewrite <- cell_of_entry in A, B by exact N. rewrite A, B. exact C.
Qed.

Lemma mapE_Forall2 {A B} (f : A -> res B) l r : mapE f l = Ok r <-> Forall2 (fun a b => f a = Ok b) l r.
Proof.
  revert r. induction l as [|a l IH]; intros r; cbn.
  - split; [intros H; injection H as <-; constructor|intros H; inversion H; reflexivity].
  - destruct (f a) as [b|e] eqn:E; cbn.
    + destruct (mapE f l) as [bs|e] eqn:E2; cbn.
      * split.
        -- intros H. injection H as <-. constructor; [exact E|apply IH; reflexivity].
        -- intros H. inversion H as [|? ? ? ? H1 H2]; subst. rewrite E in H1. injection H1 as ->. apply IH in H2. congruence.
      * split; [discriminate|]. intros H. inversion H as [|? ? ? ? H1 H2]; subst. apply IH in H2. discriminate.
    + split; [discriminate|]. intros H. inversion H; subst. congruence.
Qed.
Lemma times_spec cols fmt rows times flag : NoDup cols -> time_flag cols = Some flag ->
  mapE (row_time flag cols fmt) rows = Ok times <-> Forall2 (stamped cols fmt) rows times.
Proof.
  intros N F. rewrite mapE_Forall2. split; intros H.
  - induction H as [|? ? ? ? H1 H2 IH]; constructor; [|exact IH]. apply (row_time_stamped cols fmt _ _ flag N F). exact H1.
  - induction H as [|? ? ? ? H1 H2 IH]; constructor; [|exact IH]. apply (row_time_stamped cols fmt _ _ flag N F). exact H1.
Qed.

(** ** Selection *)
Lemma window_test stime etime t :
  (no_window stime etime || ((match stime with None => true | Some s => (s <=? t)%Z end)
     && (match etime with None => true | Some e => (t <=? e)%Z end))) = true <-> in_window stime etime t.
Proof.
  unfold in_window, no_window. destruct stime as [s|], etime as [e|]; cbn; rewrite ?andb_true_iff, ?andb_true_r, ?Z.leb_le;
    (split; [intros H; split; intros ? X; try discriminate X; injection X as <-; tauto|intros [H1 H2]; try split; auto]).
Qed.
Lemma keep_spec stime etime i times :
  StronglySorted lt (map fst (keep stime etime i times)) /\ Forall (le i) (map fst (keep stime etime i times)) /\
  (forall j t, In (j, t) (keep stime etime i times) <-> (i <= j)%nat /\ nth_error times (j - i) = Some t /\ in_window stime etime t).
Proof.
  revert i. induction times as [|t times IH]; intros i.
  - cbn. split; [constructor|]. split; [constructor|]. intros j t. split; [tauto|]. intros (_ & H & _). destruct (j - i)%nat; discriminate H.
  - destruct (IH (S i)) as (S1 & L1 & I1).
    assert (L2 : Forall (le i) (map fst (keep stime etime (S i) times))) by (eapply Forall_impl; [|exact L1]; cbn; intros; lia).
    assert (I2 : forall j u, In (j, u) (keep stime etime (S i) times) <->
                  (i < j)%nat /\ nth_error (t :: times) (j - i) = Some u /\ in_window stime etime u).
    { intros j u. rewrite I1. split; intros (A & B & C); (split; [lia|]); (split; [|exact C]).
      - replace (j - i)%nat with (S (j - S i)) by lia. exact B.
      - replace (j - i)%nat with (S (j - S i)) in B by lia. exact B. }
    cbn [keep]. destruct (_ || _) eqn:W.
    + apply window_test in W. cbn [map fst]. split; [constructor; [exact S1|]|split].
      * eapply Forall_impl; [|exact L1]. cbn. intros; lia.
      * constructor; [lia|exact L2].
      * intros j u. cbn [In]. rewrite I2. split.
        -- intros [E|(A & B & C)].
           ++ injection E as <- <-. split; [lia|]. rewrite Nat.sub_diag. cbn. auto.
           ++ split; [lia|auto].
        -- intros (A & B & C). destruct (Nat.eq_dec i j) as [<-|D].
           ++ left. rewrite Nat.sub_diag in B. cbn in B. congruence.
           ++ right. split; [lia|auto].
    + assert (NW : ~ in_window stime etime t) by (intros X; apply window_test in X; congruence).
      split; [exact S1|]. split; [exact L2|]. intros j u. rewrite I2. split.
      * intros (A & B & C). split; [lia|auto].
      * intros (A & B & C). destruct (Nat.eq_dec i j) as [<-|D].
        -- exfalso. rewrite Nat.sub_diag in B. cbn in B. congruence.
        -- split; [lia|auto].
Qed.
Lemma keep_selected stime etime times : selected stime etime times (map fst (keep stime etime 0 times)).
Proof.
  destruct (keep_spec stime etime 0 times) as (S1 & _ & I1). split; [exact S1|]. intros i. rewrite in_map_iff. split.
  - intros ([j t] & E & H). cbn in E. subst j. apply I1 in H. rewrite Nat.sub_0_r in H. exists t. tauto.
  - intros (t & A & B). exists (i, t). split; [reflexivity|]. apply I1. rewrite Nat.sub_0_r. auto with arith.
Qed.
Lemma keep_times stime etime times : Forall2 (fun i t => nth_error times i = Some t) (map fst (keep stime etime 0 times)) (map snd (keep stime etime 0 times)).
Proof.
  destruct (keep_spec stime etime 0 times) as (_ & _ & I1).
  assert (H : forall p, In p (keep stime etime 0 times) -> nth_error times (fst p) = Some (snd p)).
  { intros [j t] H. apply I1 in H. rewrite Nat.sub_0_r in H. tauto. }
  revert H. generalize (keep stime etime 0 times). intros l. induction l as [|p l IH]; intros H; cbn; constructor.
  - apply H. left. reflexivity.
  - apply IH. intros q Q. apply H. right. exact Q.
Qed.

(** ** Attributes *)
Lemma take_spec {A} idx (l : list A) r : Forall (fun i => (i < length l)%nat) idx ->
  take idx l = Ok r <-> Forall2 (fun i v => nth_error l i = Some v) idx r.
Proof.
  intros B. unfold take. rewrite mapE_Forall2.
  assert (G : forall i, (i < length l)%nat -> forall v, getE l (Z.of_nat i) = Ok v <-> nth_error l i = Some v).
  { intros i L v. unfold getE, py_get. rewrite (proj2 (Z.leb_le 0 (Z.of_nat i))) by lia.
    rewrite (proj2 (Z.ltb_lt _ _)) by lia. cbn [andb]. rewrite Nat2Z.id. destruct (nth_error l i); split; congruence. }
  split; intros H; (induction H as [|? ? ? ? H1 H2 IH]; [constructor|]; inversion B; subst; constructor; [apply G; assumption|auto]).
Qed.
Lemma take_total {A} idx (l : list A) : Forall (fun i => (i < length l)%nat) idx -> exists r, take idx l = Ok r.
Proof.
  intros B. assert (E : exists r, Forall2 (fun i v => nth_error l i = Some v) idx r).
  { induction B as [|i idx H B IH]; [exists []; constructor|]. destruct IH as [r IH].
    destruct (nth_error l i) as [v|] eqn:E; [|apply nth_error_None in E; lia]. exists (v :: r). constructor; assumption. }
  destruct E as [r E]. exists r. apply take_spec; assumption.
Qed.

Definition column_of cols rows idx name sel : Prop :=
  Forall2 (fun i v => exists row, nth_error rows i = Some row /\ value_of cols row name = Some v) idx sel.

Lemma column_spec cols rows name col : mapE (fun row => match value_of cols row name with Some v => Ok v | None => Err AttributeError end) rows = Ok col ->
  length col = length rows /\ forall i v, nth_error col i = Some v <-> exists row, nth_error rows i = Some row /\ value_of cols row name = Some v.
Proof.
  intros H. apply mapE_Forall2 in H. induction H as [|row v rows col H1 H2 [IH1 IH2]].
  - split; [reflexivity|]. intros i v. destruct i; cbn; split; try discriminate; intros (? & X & _); discriminate.
  - split; [cbn; lia|]. assert (V : value_of cols row name = Some v) by (destruct (value_of cols row name); congruence).
    intros [|i] w; cbn.
    + split; [intros E; injection E as <-; eauto|]. intros (r & E & W). congruence.
    + apply IH2.
Qed.
Lemma value_total cols row name : length row = length cols -> In name (names_of cols) -> exists v, value_of cols row name = Some v.
Proof.
  intros L I. unfold value_of, names_of in *. destruct (has_xy cols); cbn [andb].
  - destruct (String.eqb_spec name "r_cent"); [eauto|]. destruct (String.eqb_spec name "phi_cent"); [eauto|].
    apply in_app_or in I. destruct I as [I|[I|[I|[]]]]; try congruence.
    destruct (cell_of_total cols row name L I) as [c ->]. cbn. eauto.
  - destruct (cell_of_total cols row name L I) as [c ->]. cbn. eauto.
Qed.
Lemma attrs_spec cols rows idx names at_ : Forall (fun i => (i < length rows)%nat) idx ->
  attrs_of cols rows idx names = Ok at_ ->
  map fst at_ = names /\ forall name sel, In (name, sel) at_ -> column_of cols rows idx name sel.
Proof.
  intros B. revert at_. induction names as [|n names IH]; intros at_; cbn [attrs_of].
  - intros H. injection H as <-. split; [reflexivity|]. intros ? ? [].
  - destruct (mapE _ rows) as [col|] eqn:E1; cbn [bind]; [|discriminate]. destruct (take idx col) as [sel|] eqn:E2; cbn [bind]; [|discriminate].
    destruct (attrs_of cols rows idx names) as [rest|] eqn:E3; cbn [bind]; [|discriminate]. intros H. injection H as <-.
    destruct (IH rest eq_refl) as [H1 H2]. split; [cbn; congruence|]. intros name s [E|I]; [|apply H2; exact I].
    injection E as <- <-. destruct (column_spec _ _ _ _ E1) as [C1 C2].
    apply take_spec in E2; [|rewrite C1; exact B]. unfold column_of. clear - E2 C2.
    induction E2 as [|i v idx sel H1 H2 IH]; constructor; [apply C2; exact H1|exact IH].
Qed.
Lemma attrs_total cols rows idx names : Forall (fun row => length row = length cols) rows -> Forall (fun i => (i < length rows)%nat) idx ->
  (forall n, In n names -> In n (names_of cols)) -> exists at_, attrs_of cols rows idx names = Ok at_.
Proof.
  intros W B. induction names as [|n names IH]; intros I; cbn [attrs_of]; [eauto|].
  assert (E : exists col, mapE (fun row => match value_of cols row n with Some v => Ok v | None => Err AttributeError end) rows = Ok col).
  { clear - W I. induction W as [|row rows L W IH']; cbn; [eauto|]. destruct (value_total cols row n L (I n (or_introl eq_refl))) as [v ->].
    destruct IH' as [col ->]. cbn. eauto. }
  destruct E as [col E]. rewrite E. cbn [bind]. destruct (column_spec _ _ _ _ E) as [C1 _].
  destruct (take_total idx col) as [sel ->]; [rewrite C1; exact B|]. cbn [bind].
  destruct IH as [rest ->]; [intros m M; apply I; right; exact M|]. cbn [bind]. eauto.
Qed.

Lemma assoc_in {A} k (l : list (string * A)) v : assoc k l = Some v -> In (k, v) l.
Proof.
  induction l as [|[k' a] l IH]; cbn; [discriminate|]. destruct (String.eqb_spec k k') as [->|E]; [intros H; injection H as ->; auto|auto].
Qed.
Lemma assoc_some {A} k (l : list (string * A)) : In k (map fst l) -> exists v, assoc k l = Some v.
Proof.
  induction l as [|[k' a] l IH]; cbn; [tauto|]. destruct (String.eqb_spec k k') as [->|E]; [eauto|].
  intros [X|X]; [congruence|auto].
Qed.

(** ** load *)
Definition spread_as {A} (n : nat) (default : res A) (g : given A) (l : list A) : Prop :=
  match g with
  | GNone => exists d, default = Ok d /\ l = repeat d n
  | GOne a => l = repeat a n
  | GArray a => l = a /\ length a = n
  | GOther => False
  end.
Lemma spread_spec {A} n (d : res A) g l : spread n d g = Ok l <-> spread_as n d g l.
Proof.
  unfold spread, spread_as. destruct g as [|a|a|].
  - destruct d as [x|e]; cbn; split; try discriminate.
    + intros H. injection H as <-. eauto.
    + intros (y & E & ->). injection E as ->. reflexivity.
    + intros (y & E & _). discriminate.
  - split; [intros H; injection H as <-; reflexivity|intros ->; reflexivity].
  - destruct (Nat.eqb_spec (length a) n) as [E|E]; split; try discriminate.
    + intros H. injection H as <-. auto.
    + intros [-> _]. reflexivity.
    + intros [_ X]. contradiction.
  - split; [discriminate|tauto].
Qed.
Lemma spread_length {A} n (d : res A) g l : spread n d g = Ok l -> length l = n.
Proof.
  rewrite spread_spec. unfold spread_as. destruct g; [intros (x & _ & ->)|intros ->|intros [-> H]|tauto]; rewrite ?repeat_length; auto.
Qed.

Lemma idx_bound stime etime times idx : selected stime etime times idx -> Forall (fun i => (i < length times)%nat) idx.
Proof.
  intros [_ I]. apply Forall_forall. intros i H. apply I in H. destruct H as (t & E & _). apply nth_error_Some. congruence.
Qed.

Lemma load_spec {F K} cols fmt stime etime inst (rf : given (corr F)) (kw : given K) noargs rows d :
  is_table cols rows -> load cols fmt stime etime inst rf kw noargs rows = Ok (Some d) ->
  length rows <> 1%nat /\
  exists times idx, Forall2 (stamped cols fmt) rows times /\ selected stime etime times idx /\
    l_records d = Z.of_nat (length idx) /\ l_rec_ind d = (-1)%Z /\
    Forall2 (fun i t => nth_error times i = Some t) idx (l_dtime d) /\
    spread_as (length idx) (default_rfunc inst) rf (l_rfunc d) /\ length (l_rfunc d) = length idx /\
    spread_as (length idx) (Ok noargs) kw (l_kwargs d) /\ length (l_kwargs d) = length idx /\
    map fst (l_attrs d) = names_of cols /\
    (forall name sel, In (name, sel) (l_attrs d) -> column_of cols rows idx name sel).
Proof.
  intros [N W] H. unfold load in H. destruct (time_flag cols) as [flag|] eqn:TF; [|discriminate].
  assert (L1 : length rows <> 1%nat) by (intros L; destruct rows as [|r [|]]; discriminate).
  assert (H' : (times <- mapE (row_time flag cols fmt) rows ;;
          let kept := keep stime etime O times in
          let n := length kept in
          fs <- spread n (default_rfunc inst) rf ;;
          ks <- spread n (Ok noargs) kw ;;
          attrs <- attrs_of cols rows (map fst kept) (names_of cols) ;;
          Ok (Some (mkLoaded (Z.of_nat n) (-1)%Z (map snd kept) fs ks attrs))) = Ok (Some d)).
  { destruct rows as [|r [|r' rows]]; [exact H|discriminate|exact H]. }
  clear H. destruct (mapE (row_time flag cols fmt) rows) as [times|] eqn:E1; cbn [bind] in H'; [|discriminate]. cbv zeta in H'.
  apply (times_spec cols fmt rows times flag N TF) in E1.
  pose proof (keep_selected stime etime times) as SEL. pose proof (keep_times stime etime times) as KT.
  pose proof (map_length fst (keep stime etime 0 times)) as ML.
  set (kept := keep stime etime 0 times) in *.
  destruct (spread (length kept) (default_rfunc inst) rf) as [fs|] eqn:E2; cbn [bind] in H'; [|discriminate].
  destruct (spread (length kept) (Ok noargs) kw) as [ks|] eqn:E3; cbn [bind] in H'; [|discriminate].
  destruct (attrs_of cols rows (map fst kept) (names_of cols)) as [at_|] eqn:E4; cbn [bind] in H'; [|discriminate].
  injection H' as <-. cbn [l_records l_rec_ind l_dtime l_rfunc l_kwargs l_attrs].
  assert (LT : length times = length rows) by (symmetry; eapply F2_length; exact E1).
  apply attrs_spec in E4; [|rewrite <- LT; eapply idx_bound; exact SEL]. destruct E4 as [A1 A2].
  split; [exact L1|]. exists times, (map fst kept). rewrite ML.
  split; [exact E1|]. split; [exact SEL|]. split; [reflexivity|]. split; [reflexivity|]. split; [exact KT|].
  split; [apply spread_spec; exact E2|]. split; [eapply spread_length; exact E2|].
  split; [apply spread_spec; exact E3|]. split; [eapply spread_length; exact E3|]. split; [exact A1|exact A2].
Qed.

Lemma selected_length stime etime times idx idx' : selected stime etime times idx -> selected stime etime times idx' -> length idx = length idx'.
Proof.
  intros [A1 A2] [B1 B2].
  assert (N : forall l, StronglySorted lt l -> NoDup l).
  { intros l S. induction S as [|a l S IH F]; constructor; [intros I; rewrite Forall_forall in F; specialize (F a I); lia|exact IH]. }
  apply Nat.le_antisymm; apply NoDup_incl_length; auto; intros i I; [apply B2, A2|apply A2, B2]; exact I.
Qed.

Lemma load_total {F K} cols fmt stime etime inst (rf : given (corr F)) (kw : given K) noargs rows times idx fs ks :
  is_table cols rows -> length rows <> 1%nat -> Forall2 (stamped cols fmt) rows times -> (year_file cols \/ date_file cols) ->
  selected stime etime times idx ->
  spread_as (length idx) (default_rfunc inst) rf fs -> spread_as (length idx) (Ok noargs) kw ks ->
  exists d, load cols fmt stime etime inst rf kw noargs rows = Ok (Some d).
Proof.
  intros [N W] L1 T TC SEL S1 S2. unfold load. destruct (time_flag_spec cols) as (F1 & F2 & F3).
  destruct (time_flag cols) as [flag|] eqn:TF; [|exfalso; tauto].
  pose proof (keep_selected stime etime times) as SEL2.
  assert (LEN : length (keep stime etime 0 times) = length idx).
  { rewrite <- (map_length fst). eapply selected_length; eassumption. }
  assert (E : exists d, (times <- mapE (row_time flag cols fmt) rows ;;
          let kept := keep stime etime O times in
          let n := length kept in
          fs <- spread n (default_rfunc inst) rf ;;
          ks <- spread n (Ok noargs) kw ;;
          attrs <- attrs_of cols rows (map fst kept) (names_of cols) ;;
          Ok (Some (mkLoaded (Z.of_nat n) (-1)%Z (map snd kept) fs ks attrs))) = Ok (Some d)).
  { rewrite (proj2 (times_spec cols fmt rows times flag N TF) T). cbn [bind]. cbv zeta. rewrite LEN.
    rewrite (proj2 (spread_spec _ _ _ _) S1), (proj2 (spread_spec _ _ _ _) S2). cbn [bind].
    destruct (attrs_total cols rows (map fst (keep stime etime 0 times)) (names_of cols) W) as [at_ ->].
    - rewrite (F2_length _ _ _ T). eapply idx_bound. exact SEL2.
    - auto.
    - cbn [bind]. eauto. }
  destruct rows as [|r [|r' rows]]; [exact E|contradiction L1; reflexivity|exact E].
Qed.
