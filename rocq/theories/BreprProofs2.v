(** Lemmas on [__str__] of boundary objects. *)
From Coq Require Import String Ascii Reals ZArith List Bool Sorted Lia PeanoNat.
From Verif Require Import PyBase PyString RangeModel CoordModel CycleModel LoadModel LoadSpec LoadProofs BreprModel BreprSpec BreprProofs.
Import ListNotations.
Open Scope list_scope.

Lemma mapE_total {A B} (f : A -> res B) l : (forall a, In a l -> exists b, f a = Ok b) -> exists r, mapE f l = Ok r.
Proof.
  induction l as [|a l IH]; intros H; [eexists; reflexivity|]. destruct (H a (or_introl eq_refl)) as [b E]. destruct IH as [r R]; [intros; apply H; right; assumption|].
  exists (b :: r). cbn [mapE]. rewrite E. cbn [bind]. rewrite R. reflexivity.
Qed.
Lemma mapE_in {A B} (f : A -> res B) l r b : mapE f l = Ok r -> In b r <-> exists a, In a l /\ f a = Ok b.
Proof.
  intros E. apply mapE_Forall2 in E. induction E as [|x y l r E F IH]; [cbn; split; [tauto|intros (a & [] & _)]|]. cbn [In]. rewrite IH. split.
  - intros [<-|(a & I & H)]; eauto.
  - intros (a & [<-|I] & H); [left; congruence|right; eauto].
Qed.

(** ** Unique records *)
Lemma insert_in x l y : In y (insert_nat x l) <-> y = x \/ In y l.
Proof.
  unfold insert_nat. induction l as [|z l IH]; [cbn; intuition|]. destruct (x <? z)%nat; [cbn; intuition|].
  destruct (Nat.eqb_spec x z) as [->|N]; [cbn; intuition|]. cbn [In]. rewrite IH. intuition.
Qed.
Lemma insert_sorted x l : StronglySorted lt l -> StronglySorted lt (insert_nat x l).
Proof.
  induction 1 as [|y l S IH F]; [repeat constructor|]. change (insert_nat x (y :: l)) with (if (x <? y)%nat then x :: y :: l else if (x =? y)%nat then y :: l else y :: insert_nat x l).
  destruct (Nat.ltb_spec x y) as [L|L].
  - constructor; [constructor; assumption|]. constructor; [exact L|]. eapply Forall_impl; [|exact F]. intros; lia.
  - destruct (Nat.eqb_spec x y) as [->|N]; [constructor; assumption|]. constructor; [exact IH|].
    apply Forall_forall. intros z I. apply insert_in in I. destruct I as [->|I]; [lia|]. rewrite Forall_forall in F. apply F, I.
Qed.
Lemma unique_spec l : StronglySorted lt (unique l) /\ forall x, In x (unique l) <-> In x l.
Proof.
  induction l as [|y l [S I]]; [split; [constructor|tauto]|]. cbn [unique fold_right]. fold (unique l). split; [apply insert_sorted, S|].
  intros x. rewrite insert_in, I. cbn. intuition.
Qed.
Lemma seq_get n i : (i < n)%nat -> getE (seq 0 n) (Z.of_nat i) = Ok i.
Proof.
  intros L. rewrite getE_nat. rewrite (nth_error_nth' (seq 0 n) O) by (rewrite seq_length; exact L). rewrite seq_nth by exact L. reflexivity.
Qed.
Lemma records_shown_spec n : (0 < n)%nat -> exists idx, records_shown n = Ok idx /\ StronglySorted lt idx /\ forall i, In i idx <-> near_an_end n i.
Proof.
  intros P. unfold records_shown, near_an_end. destruct (Nat.eqb_spec n 1) as [->|N].
  - exists [0%nat]. split; [reflexivity|]. split; [repeat constructor|]. intros i. cbn. lia.
  - cbn [mapE]. change 0%Z with (Z.of_nat 0). rewrite (seq_get n 0) by lia. cbn [bind]. change 1%Z with (Z.of_nat 1). rewrite (seq_get n 1) by lia. cbn [bind].
    change (-2)%Z with (- Z.of_nat 2)%Z. rewrite getE_neg by (rewrite seq_length; lia). rewrite seq_length, seq_get by lia. cbn [bind].
    change (-1)%Z with (- Z.of_nat 1)%Z. rewrite getE_neg by (rewrite seq_length; lia). rewrite seq_length, seq_get by lia. cbn [bind].
    eexists. split; [reflexivity|]. destruct (unique_spec [0; 1; n - 2; n - 1]%nat) as [S I]. split; [exact S|]. intros i. rewrite I. cbn. lia.
Qed.

(** ** Names *)
Lemma has_dot_app m s : has_sub "." (m ++ "." ++ s) = true.
Proof.
  induction m as [|c m IH]; [cbn; destruct s; reflexivity|]. change (String c m ++ "." ++ s)%string with (String c (m ++ "." ++ s)). unfold has_sub; fold has_sub. destruct (prefix _ _); [reflexivity|exact IH].
Qed.
Lemma last_part_no_dot s : no_dot s -> last_part s = s.
Proof. unfold no_dot. destruct s; [reflexivity|]. intros H. unfold last_part; fold last_part. rewrite H. reflexivity. Qed.
Lemma last_part_app m s : no_dot s -> last_part (m ++ "." ++ s) = s.
Proof.
  intros N. induction m as [|c m IH].
  - change ("" ++ "." ++ s)%string with (String "." s). unfold last_part; fold last_part.
    replace (has_sub "." (String "." s)) with true by (cbn; destruct s; reflexivity). apply last_part_no_dot, N.
  - change (String c m ++ "." ++ s)%string with (String c (m ++ "." ++ s)). unfold last_part; fold last_part.
    replace (has_sub "." (String c (m ++ "." ++ s))) with true; [exact IH|]. symmetry. apply (has_dot_app (String c m) s).
Qed.

(** ** Attributes *)
Lemma attrs_of_assoc cols rows idx names at_ n : attrs_of cols rows idx names = Ok at_ -> In n names -> exists l, assoc n at_ = Some l /\ length l = length idx.
Proof.
  revert at_. induction names as [|m names IH]; intros at_ E I; [destruct I|]. cbn [attrs_of] in E.
  destruct (mapE _ rows) as [col|]; cbn [bind] in E; [|discriminate]. destruct (take idx col) as [sel|] eqn:T; cbn [bind] in E; [|discriminate].
  destruct (attrs_of cols rows idx names) as [rest|]; cbn [bind] in E; [|discriminate]. injection E as <-. cbn [assoc].
  destruct (String.eqb_spec n m) as [->|N].
  - exists sel. split; [reflexivity|]. unfold take in T. apply mapE_Forall2 in T. symmetry. eapply F2_length. exact T.
  - destruct I as [->|I]; [congruence|]. apply IH; auto.
Qed.
Lemma load_parts {F K} cols fmt s e inst (rf : given (corr F)) (kw : given K) noargs rows d :
  load cols fmt s e inst rf kw noargs rows = Ok (Some d) ->
  l_records d = Z.of_nat (length (l_dtime d)) /\ length (l_rfunc d) = length (l_dtime d) /\ length (l_kwargs d) = length (l_dtime d) /\
  forall n, In n (names_of cols) -> exists l, assoc n (l_attrs d) = Some l /\ length l = length (l_dtime d).
Proof.
  intros LD. unfold load in LD. destruct (time_flag cols) as [flag|]; [|discriminate].
  destruct rows as [|r0 [|r1 rows]]; [|discriminate|];
   (destruct (mapE _ _) as [times|]; cbn [bind] in LD; [|discriminate]; cbv zeta in LD;
    destruct (spread _ _ rf) as [l1|] eqn:S1; cbn [bind] in LD; [|discriminate]; destruct (spread _ _ kw) as [l2|] eqn:S2; cbn [bind] in LD; [|discriminate];
    destruct (attrs_of _ _ _ _) eqn:AT; cbn [bind] in LD; [|discriminate]; injection LD as <-; cbn [l_rfunc l_kwargs l_dtime l_records l_attrs];
    apply spread_length in S1; apply spread_length in S2; rewrite map_length; repeat match goal with |- _ /\ _ => split end; auto;
    intros n I; destruct (attrs_of_assoc _ _ _ _ _ n AT I) as (l & A & L); exists l; rewrite map_length in L; auto).
Qed.

Section Str.
Context {F K : Type} (fmod fnam : corr F -> string) (ktext : K -> string) (order : list string -> list string).
Context (ORD : lists_a_set order).

Lemma kwargs_for_spec (d : loaded F K) ff : length (l_kwargs d) = length (l_rfunc d) ->
  exists ks, kwargs_for fnam ktext order d ff = Ok ks /\ NoDup ks /\
    forall x, In x ks <-> exists i f k, nth_error (l_rfunc d) i = Some f /\ nth_error (l_kwargs d) i = Some k /\ fnam f = last_part ff /\ x = ktext k.
Proof.
  intros L. unfold kwargs_for.
  assert (CI : forall i f, In (i, f) (combine (seq 0 (length (l_rfunc d))) (l_rfunc d)) <-> nth_error (l_rfunc d) i = Some f).
  { intros i f. generalize (l_rfunc d). intros l. enough (G : forall a, In (i, f) (combine (seq a (length l)) l) <-> (a <= i)%nat /\ nth_error l (i - a) = Some f).
    { rewrite (G O). rewrite Nat.sub_0_r. intuition lia. }
    induction l as [|g l IH]; intros a; [cbn; split; [tauto|]; intros [_ X]; destruct (i - a)%nat; discriminate|].
    cbn [length seq combine In]. rewrite IH. split.
    - intros [X|[A B]]; [injection X as <- <-; rewrite Nat.sub_diag; auto|]. split; [lia|]. replace (i - a)%nat with (S (i - S a)) by lia. exact B.
    - intros [A B]. destruct (Nat.eq_dec a i) as [->|N]; [left; rewrite Nat.sub_diag in B; cbn in B; congruence|]. right. split; [lia|].
      replace (i - a)%nat with (S (i - S a)) in B by lia. exact B. }
  match goal with |- context [mapE ?g ?l] => destruct (mapE_total g l) as [r R] end.
  { intros [i f] I. apply CI in I. destruct (String.eqb _ _); [|eauto]. rewrite getE_nat.
    destruct (nth_error (l_kwargs d) i) as [k|] eqn:N; [cbn [bind]; eauto|]. apply nth_error_None in N. assert (i < length (l_rfunc d))%nat by (apply nth_error_Some; congruence). lia. }
  rewrite R. cbn [bind]. eexists. split; [reflexivity|]. destruct (ORD (concat r)) as [ND IN]. split; [exact ND|]. intros x. rewrite IN. rewrite in_concat. split.
  - intros (y & I & J). apply (mapE_in _ _ _ _ R) in I. destruct I as ([i f] & I & E). apply CI in I.
    destruct (String.eqb_spec (fnam f) (last_part ff)) as [Q|Q]; [|injection E as <-; destruct J]. rewrite getE_nat in E.
    destruct (nth_error (l_kwargs d) i) as [k|] eqn:N; cbn [bind] in E; [|discriminate]. injection E as <-. destruct J as [<-|[]]. exists i, f, k. auto.
  - intros (i & f & k & A & B & C & ->). exists [ktext k]. split; [|left; reflexivity]. apply (mapE_in _ _ _ _ R). exists (i, f). split; [apply CI; exact A|].
    rewrite (proj2 (String.eqb_eq _ _) C), getE_nat, B. reflexivity.
Qed.

Definition is_func (l : line) : bool := match l with LFunc _ _ => true | _ => false end.
Definition is_record (l : line) : bool := match l with LRecord _ _ _ _ => true | _ => false end.

Lemma nodup_concat {A B} (f : A -> list B) l : NoDup l -> (forall a, In a l -> NoDup (f a)) -> (forall a b x, In a l -> In b l -> In x (f a) -> In x (f b) -> a = b) -> NoDup (concat (map f l)).
Proof.
  induction l as [|a l IH]; intros N H D; [constructor|]. cbn [map concat]. inversion N as [|? ? NI N']; subst.
  assert (NA : forall (u v : list B), NoDup u -> NoDup v -> (forall x, In x u -> ~ In x v) -> NoDup (u ++ v)).
  { clear. induction u as [|x u IH]; intros v U V X; [exact V|]. inversion U; subst. cbn. constructor.
    - intros I. apply in_app_or in I. destruct I as [I|I]; [contradiction|]. exact (X x (or_introl eq_refl) I).
    - apply IH; auto. intros y I. apply X. right. exact I. }
  apply NA; [apply H; left; reflexivity|apply IH; [exact N'|intros; apply H; right; assumption|intros b c x Ib Ic; apply D; right; assumption]|].
  intros x I J. apply in_concat in J. destruct J as (y & J & K'). apply in_map_iff in J. destruct J as (b & <- & J).
  apply NI. rewrite (D a b x); auto; [left; reflexivity|right; exact J].
Qed.
Lemma func_lines_spec (d : loaded F K) : length (l_kwargs d) = length (l_rfunc d) ->
  exists ls, func_lines fmod fnam ktext order d = Ok ls /\ NoDup ls /\ Forall (fun l => is_func l = true) ls /\
    forall a b, In (LFunc a b) ls <-> (exists g, In g (l_rfunc d) /\ a = ftext fmod fnam g) /\
      exists i f k, nth_error (l_rfunc d) i = Some f /\ nth_error (l_kwargs d) i = Some k /\ fnam f = last_part a /\ b = ktext k.
Proof.
  intros L. unfold func_lines. set (names := order (map (ftext fmod fnam) (l_rfunc d))).
  assert (C : exists ksf, forall ff, kwargs_for fnam ktext order d ff = Ok (ksf ff)).
  { exists (fun ff => match kwargs_for fnam ktext order d ff with Ok ks => ks | Err _ => [] end). intros ff. destruct (kwargs_for_spec d ff L) as (ks & E & _). rewrite E. reflexivity. }
  destruct C as [ksf C].
  assert (M : mapE (fun ff => ks <- kwargs_for fnam ktext order d ff ;; Ok (map (LFunc ff) ks)) names = Ok (map (fun ff => map (LFunc ff) (ksf ff)) names)).
  { generalize names. intros l. induction l as [|x l IH]; [reflexivity|]. cbn [mapE map]. rewrite C. cbn [bind]. rewrite IH. reflexivity. }
  rewrite M. cbn [bind]. eexists. split; [reflexivity|]. destruct (ORD (map (ftext fmod fnam) (l_rfunc d))) as [ND IN]. fold names in ND, IN. split; [|split].
  - apply nodup_concat; [exact ND| |].
    + intros ff _. destruct (kwargs_for_spec d ff L) as (ks & E & N & _). rewrite C in E. injection E as ->.
      clear - N. induction N as [|x l NI N IH]; [constructor|]. cbn. constructor; [|exact IH]. intros I. apply in_map_iff in I. destruct I as (y & E & I). injection E as <-. contradiction.
    + intros a b x _ _ A B. apply in_map_iff in A. apply in_map_iff in B. destruct A as (u & <- & _), B as (v & E & _). congruence.
  - apply Forall_forall. intros x I. apply in_concat in I. destruct I as (y & I & J). apply in_map_iff in I. destruct I as (ff & <- & _). apply in_map_iff in J. destruct J as (u & <- & _). reflexivity.
  - intros a b. rewrite in_concat. destruct (kwargs_for_spec d a L) as (ks & E & _ & IK). rewrite C in E. injection E as E. split.
    + intros (y & I & J). apply in_map_iff in I. destruct I as (ff & <- & I). apply in_map_iff in J. destruct J as (u & Q & J). injection Q as -> ->.
      rewrite E in J. split; [apply IN in I; apply in_map_iff in I; destruct I as (g & <- & I); eauto|]. apply IK. exact J.
    + intros [(g & I & ->) H]. exists (map (LFunc (ftext fmod fnam g)) (ksf (ftext fmod fnam g))). split.
      * apply in_map_iff. exists (ftext fmod fnam g). split; [reflexivity|]. apply IN. apply in_map. exact I.
      * apply in_map. rewrite E. apply IK. exact H.
Qed.
End Str.
