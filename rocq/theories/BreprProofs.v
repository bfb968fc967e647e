(** Lemmas on the texts of boundary objects. *)
From Coq Require Import String Ascii Reals ZArith List Bool Sorted Lia Lra PeanoNat.
From Flocq Require Import Core.Generic_fmt Core.Round_NE Core.Raux.
From Verif Require Import PyBase PyString RangeModel CoordModel CycleModel LoadModel LoadSpec LoadProofs BreprModel BreprSpec.
Import ListNotations.
Open Scope list_scope.

(** ** Numbers with six decimals *)
Lemma fixed6_exact x : six_decimals x -> fixed6 x = x.
Proof.
  intros [k ->]. unfold fixed6. replace (IZR k / 1000000 * 1000000)%R with (IZR k) by field.
  rewrite Zrnd_IZR by apply valid_rnd_N. reflexivity.
Qed.
Lemma fixed6_six x : six_decimals (fixed6 x).
Proof. eexists. reflexivity. Qed.
Lemma six_opp x : six_decimals x -> six_decimals (x * -1).
Proof. intros [k ->]. exists (- k)%Z. rewrite opp_IZR. field. Qed.
Lemma init_lat_six h x y : six_decimals x -> init_lat h (Some x) = Ok y -> six_decimals y.
Proof.
  intros S. unfold init_lat. destruct (negb _); [discriminate|]. intros E. injection E as <-. destruct (_ =? _)%Z; [exact S|apply six_opp; exact S].
Qed.
Lemma sgn_opp x : sgn (x * -1) = (- sgn x)%Z.
Proof.
  unfold sgn. destruct (Rlt_dec 0 x), (Rlt_dec x 0), (Rlt_dec 0 (x * -1)), (Rlt_dec (x * -1) 0); try reflexivity; lra.
Qed.
Lemma init_lat_twice h l y : init_lat h l = Ok y -> init_lat h (Some y) = Ok y.
Proof.
  unfold init_lat. destruct (negb _) eqn:H; [discriminate|]. destruct l as [l|]; [|discriminate]. intros E. injection E as <-.
  destruct (sgn l =? h)%Z eqn:S; [rewrite S; reflexivity|]. rewrite sgn_opp.
  assert (X : (h = 1 \/ h = -1)%Z).
  { apply negb_false_iff, orb_true_iff in H. rewrite !Z.eqb_eq in H. exact H. }
  assert (Y : (sgn l = 1 \/ sgn l = -1 \/ sgn l = 0)%Z).
  { unfold sgn. destruct (Rlt_dec 0 l); [auto|]. destruct (Rlt_dec l 0); auto. }
  apply Z.eqb_neq in S. destruct (- sgn l =? h)%Z eqn:T; [reflexivity|]. apply Z.eqb_neq in T.
  assert (Z0 : sgn l = 0%Z) by lia. f_equal. assert (l = 0)%R; [|subst; lra].
  unfold sgn in Z0. destruct (Rlt_dec 0 l); [discriminate|]. destruct (Rlt_dec l 0); [discriminate|]. lra.
Qed.

(** ** Subscripts *)
Lemma getE_0 {A} (l : list A) : getE l 0 = match hd_error l with Some a => Ok a | None => Err IndexError end.
Proof. destruct l; reflexivity. Qed.
Lemma getE_nat {A} (l : list A) i : getE l (Z.of_nat i) = match nth_error l i with Some a => Ok a | None => Err IndexError end.
Proof.
  unfold getE, py_get. destruct (0 <=? Z.of_nat i)%Z eqn:P; [|apply Z.leb_gt in P; lia]. cbn [andb].
  destruct (Z.of_nat i <? Z.of_nat (length l))%Z eqn:L.
  - rewrite Nat2Z.id. reflexivity.
  - apply Z.ltb_ge in L. rewrite (proj2 (nth_error_None l i)) by lia.
    destruct (Z.of_nat i <? 0)%Z eqn:N; [apply Z.ltb_lt in N; lia|]. rewrite andb_false_r. reflexivity.
Qed.
Lemma getE_neg {A} (l : list A) k : (0 < k <= length l)%nat -> getE l (- Z.of_nat k) = getE l (Z.of_nat (length l - k)).
Proof.
  intros B. unfold getE, py_get. rewrite (proj2 (Z.leb_gt 0 (- Z.of_nat k))) by lia. cbn [andb].
  rewrite (proj2 (Z.leb_le (- Z.of_nat (length l)) (- Z.of_nat k))) by lia. rewrite (proj2 (Z.ltb_lt (- Z.of_nat k) 0)) by lia. cbn [andb].
  rewrite (proj2 (Z.leb_le 0 (Z.of_nat (length l - k)))) by lia. rewrite (proj2 (Z.ltb_lt (Z.of_nat (length l - k)) (Z.of_nat (length l)))) by lia. cbn [andb].
  replace (Z.of_nat (length l) + - Z.of_nat k)%Z with (Z.of_nat (length l - k)) by lia. reflexivity.
Qed.
Lemma hd_rev {A} (l : list A) : hd_error (rev l) = nth_error l (length l - 1).
Proof.
  induction l as [|x l IH] using rev_ind; [reflexivity|]. rewrite rev_app_distr, app_length. cbn [rev app hd_error length].
  rewrite nth_error_app2 by lia. replace (length l + 1 - 1 - length l)%nat with O by lia. reflexivity.
Qed.
Lemma getE_last {A} (l : list A) : getE l (-1) = match hd_error (rev l) with Some a => Ok a | None => Err IndexError end.
Proof.
  destruct l as [|x l]; [reflexivity|]. change (-1)%Z with (- Z.of_nat 1)%Z. rewrite getE_neg by (cbn; lia). rewrite getE_nat, hd_rev. reflexivity.
Qed.

(** ** Records in a window *)
Definition wanted (stime etime : option Z) (t : Z) : bool :=
  no_window stime etime
  || ((match stime with None => true | Some s => (s <=? t)%Z end) && (match etime with None => true | Some e => (t <=? e)%Z end)).
Lemma keep_ext s e s' e' times i : (forall t, In t times -> wanted s e t = wanted s' e' t) -> keep s e i times = keep s' e' i times.
Proof.
  revert i. induction times as [|t l IH]; intros i H; [reflexivity|]. cbn [keep].
  fold (wanted s e t). fold (wanted s' e' t). rewrite (H t (or_introl eq_refl)). rewrite IH by (intros; apply H; right; assumption). reflexivity.
Qed.
Lemma keep_in s e times i t : In t (map snd (keep s e i times)) <-> In t times /\ wanted s e t = true.
Proof.
  revert i. induction times as [|u l IH]; intros i; [cbn; tauto|]. cbn [keep]. fold (wanted s e u). destruct (wanted s e u) eqn:W.
  - cbn [map snd In]. rewrite IH. split; [intros [<-|[A B]]; auto|intros [[<-|A] B]; auto].
  - rewrite IH. cbn [In]. split; [tauto|]. intros [[<-|A] B]; [congruence|auto].
Qed.
Lemma keep_again s e times : bounded_by_ends (map snd (keep s e O times)) ->
  keep (hd_error (map snd (keep s e O times))) (hd_error (rev (map snd (keep s e O times)))) O times = keep s e O times.
Proof.
  set (kept := map snd (keep s e O times)). intros (a & b & A & B & F). rewrite A, B. apply keep_ext. intros t I.
  assert (Ia : In a kept) by (destruct kept; [discriminate A|cbn in A; injection A as <-; left; reflexivity]).
  assert (Ib : In b kept).
  { rewrite hd_rev in B. eapply nth_error_In. exact B. }
  apply keep_in in Ia. apply keep_in in Ib. destruct Ia as [_ Wa], Ib as [_ Wb].
  destruct (wanted s e t) eqn:W.
  - assert (In t kept) as K by (apply keep_in; auto). rewrite Forall_forall in F. specialize (F t K).
    unfold wanted. cbn [no_window orb]. apply andb_true_iff. rewrite !Z.leb_le. exact F.
  - unfold wanted in *. cbn [no_window orb]. destruct s as [s|], e as [e|]; cbn [no_window orb] in *; try discriminate W;
      repeat rewrite ?andb_true_r, ?andb_true_l, ?andb_true_iff in *; try rewrite andb_false_iff; try rewrite ?Z.leb_le, ?Z.leb_gt in *.
    + apply andb_false_iff in W. rewrite !Z.leb_gt in W. lia.
    + lia.
    + cbn [andb] in *. rewrite ?Z.leb_le, ?Z.leb_gt in *. lia.
Qed.

(** ** Corrections *)
Lemma summarise_eval {A} (text : A -> string) (ev : string -> res A) l : l <> [] -> Forall (fun a => ev (text a) = Ok a) l ->
  exists g, eval_shown ev (summarise (map text l)) = Ok g /\ forall d, spread (length l) d g = Ok l.
Proof.
  intros N E. unfold summarise. destruct (_ =? 1)%nat eqn:L.
  - apply Nat.eqb_eq in L. destruct l as [|a l]; [congruence|]. cbn [map hd eval_shown]. inversion E as [|? ? Ea El]; subst. rewrite Ea.
    exists (GOne a). split; [reflexivity|]. intros d. cbn [spread]. f_equal. symmetry.
    assert (ALL : forall b, In b l -> b = a).
    { intros b Ib. assert (text b = text a) as T.
      { destruct (nodup string_dec (map text (a :: l))) as [|x [|y r]] eqn:ND; try discriminate L.
        assert (I1 : In (text a) [x]) by (rewrite <- ND; apply nodup_In; left; reflexivity).
        assert (I2 : In (text b) [x]) by (rewrite <- ND; apply nodup_In; right; apply in_map; exact Ib).
        destruct I1 as [<-|[]], I2 as [<-|[]]. reflexivity. }
      rewrite Forall_forall in El. specialize (El b Ib). rewrite T in El. congruence. }
    cbn [length repeat]. f_equal. clear - ALL. induction l as [|b l IH]; [reflexivity|]. cbn. rewrite (ALL b (or_introl eq_refl)). f_equal. apply IH. intros c I. apply ALL. right. exact I.
  - cbn [eval_shown]. assert (M : mapE ev (map text l) = Ok l).
    { clear - E. induction E as [|a l Ea El IH]; [reflexivity|]. cbn [map mapE]. rewrite Ea. cbn [bind]. rewrite IH. reflexivity. }
    rewrite M. exists (GArray l). split; [reflexivity|]. intros d. cbn [spread]. rewrite Nat.eqb_refl. reflexivity.
Qed.
Lemma spread_rep {A} n (d : res A) g l : spread n d g = Ok l -> length l = n.
Proof. apply spread_length. Qed.

(** ** Loading again *)
Lemma load_again {F K} cols fmt s e inst (rf : given (corr F)) (kw : given K) noargs rows d rf' kw' :
  load cols fmt s e inst rf kw noargs rows = Ok (Some d) -> bounded_by_ends (l_dtime d) ->
  (forall x, spread (length (l_rfunc d)) x rf' = Ok (l_rfunc d)) -> (forall x, spread (length (l_kwargs d)) x kw' = Ok (l_kwargs d)) ->
  load cols fmt (hd_error (l_dtime d)) (hd_error (rev (l_dtime d))) inst rf' kw' noargs rows = Ok (Some d).
Proof.
  intros E B R S. unfold load in *. destruct (time_flag cols) as [flag|]; [|discriminate].
  assert (X : forall rr, rows = rr ->
    (times <- mapE (row_time flag cols fmt) rr ;;
          let kept := keep s e O times in
          let n := length kept in
          fs <- spread n (default_rfunc inst) rf ;;
          ks <- spread n (Ok noargs) kw ;;
          attrs <- attrs_of cols rr (map fst kept) (names_of cols) ;;
          Ok (Some (mkLoaded (Z.of_nat n) (-1)%Z (map snd kept) fs ks attrs))) = Ok (Some d) ->
    (times <- mapE (row_time flag cols fmt) rr ;;
          let kept := keep (hd_error (l_dtime d)) (hd_error (rev (l_dtime d))) O times in
          let n := length kept in
          fs <- spread n (default_rfunc inst) rf' ;;
          ks <- spread n (Ok noargs) kw' ;;
          attrs <- attrs_of cols rr (map fst kept) (names_of cols) ;;
          Ok (Some (mkLoaded (Z.of_nat n) (-1)%Z (map snd kept) fs ks attrs))) = Ok (Some d)).
  { intros rr _ H. destruct (mapE _ rr) as [times|]; cbn [bind] in *; [|discriminate]. cbv zeta in *.
    destruct (spread _ _ rf) as [fs|] eqn:SF; cbn [bind] in H; [|discriminate]. destruct (spread _ _ kw) as [ks|] eqn:SK; cbn [bind] in H; [|discriminate].
    destruct (attrs_of _ _ _ _) as [at_|] eqn:AT; cbn [bind] in H; [|discriminate]. injection H as <-. cbn [l_dtime l_rfunc l_kwargs] in *.
    rewrite keep_again by exact B. apply spread_length in SF. apply spread_length in SK. rewrite <- SF at 1. rewrite R. cbn [bind]. rewrite <- SK at 1. rewrite S. cbn [bind].
    rewrite AT. reflexivity. }
  destruct rows as [|r [|r' rows]]; [apply (X []); auto|discriminate|apply (X (r :: r' :: rows)); auto].
Qed.
