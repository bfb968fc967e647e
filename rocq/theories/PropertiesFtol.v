(** C186: matching with a tolerance that is a float. *)
From Coq Require Import String ZArith QArith Reals List Bool Lia Lra.
From Flocq Require Import Core BinarySingleNaN.
From Verif Require Import PyBase CycleModel CycleSpec CycleProofs FloatModel FloatProofs FtimeModel FtimeProofs FmatchModel FmatchProofs PropertiesCycle PropertiesFmatch FsoyProofs FmidModel PropertiesFmid FtolModel.
Import ListNotations.
Open Scope string_scope.
Open Scope list_scope.
Open Scope Z_scope.

Lemma timedelta_whole k : 0 <= k <= 1099511627776 -> timedelta_seconds (whole k) = Ok (k * 1000000).
Proof.
  intros K. destruct (FtimeProofs.whole_R k ltac:(lia)) as (W & F & _). rewrite timedelta_value; [|exact F|rewrite W; split; apply IZR_le; lia].
  rewrite W, Zfloor_IZR. replace ((IZR k - IZR k) * 1000000)%R with (IZR 0) by lra. rewrite FtimeProofs.rnd_whole by lia. rewrite (@Zrnd_IZR ZnearestE _). f_equal. lia.
Qed.
Lemma lt_minus x k : Z.abs k <= 2 ^ 53 -> f64_lt x (f64_opp (whole k)) = f64_lt x (whole (- k)).
Proof.
  intros K. destruct (FtimeProofs.whole_R k K) as (W & F & _). destruct (FtimeProofs.whole_R (- k) ltac:(lia)) as (W' & F' & _).
  assert (G : is_finite (f64_opp (whole k)) = true) by (unfold f64_opp; now rewrite is_finite_Bopp).
  destruct (is_finite x) eqn:X.
  - apply lt_same; try assumption; [reflexivity|]. unfold f64_opp. rewrite B2R_Bopp. change (B2R (whole k)) with (toR (whole k)). change (B2R (whole (- k))) with (toR (whole (- k))). rewrite W, W', opp_IZR. reflexivity.
  - revert G F'. generalize (f64_opp (whole k)) (whole (- k)). intros y z G F'. destruct x as [|[|]| |]; try discriminate X; destruct y; try discriminate G; destruct z; try discriminate F'; reflexivity.
Qed.

Section Tol.
  Variables (records : Z) (dtime : list Z) (cycle : Z -> res Z) (dat : list Z) (k : Z).
  Hypothesis K : 0 <= k <= 1099511627776.

  Lemma main_ge fuel : forall rec idat last o r, main_loop_f records dtime cycle dat k fuel rec idat last = Ok (o, r) ->
    match o with Some i => idat <= i | None => True end.
  Proof using.
    clear K. induction fuel as [|fuel IH]; intros rec idat last o r; cbn [main_loop_f].
    - destruct (_ && _); [discriminate|]. destruct (idat =? 0); [destruct last as [s|]; [|discriminate]; destruct (f64_lt _ _)|]; intros [= <- <-]; lia || exact I.
    - destruct (_ && _).
      + destruct (getE dtime rec) as [t|]; [cbn [bind]|discriminate]. destruct (getE dat idat) as [d|]; [cbn [bind]|discriminate].
        destruct (f64_lt _ _); [destruct (cycle rec) as [r'|]; [cbn [bind]; apply IH|discriminate]|].
        destruct (f64_lt _ _). { intros H. apply IH in H. destruct o; [lia|exact I]. }
        destruct (cycle rec) as [r'|]; [cbn [bind]|discriminate]. destruct (r' <? records).
        * destruct (getE dtime r'); [cbn [bind]|discriminate]. destruct (descend_f _ _ _ _ _ _ _ _ _); [cbn [bind]|discriminate]. intros [= <- <-]. lia.
        * intros [= <- <-]. lia.
      + destruct (idat =? 0); [destruct last as [s|]; [|discriminate]; destruct (f64_lt _ _)|]; intros [= <- <-]; lia || exact I.
  Qed.
  (** The same, unless the index moves. *)
  Definition unless_moved (idat : Z) (o : option Z) (r : Z) : res (option Z * Z) :=
    match o with Some i => if i =? idat then Ok (o, r) else Err ValueError | None => Err ValueError end.
  Lemma main_t fuel : forall rec idat last o r, main_loop_f records dtime cycle dat k fuel rec idat last = Ok (o, r) ->
    main_loop_t records dtime cycle dat (whole k) fuel rec idat last = unless_moved idat o r.
  Proof using K.
    induction fuel as [|fuel IH]; intros rec idat last o r; cbn [main_loop_f main_loop_t].
    - destruct (_ && _); [discriminate|]. destruct (idat =? 0); [destruct last as [s|]; [|discriminate]; destruct (f64_lt _ _)|]; intros [= <- <-]; cbn [unless_moved]; rewrite ?Z.eqb_refl; reflexivity.
    - destruct (_ && _).
      + destruct (getE dtime rec) as [t|]; [cbn [bind]|discriminate]. destruct (getE dat idat) as [d|]; [cbn [bind]|discriminate].
        rewrite lt_minus by lia.
        destruct (f64_lt (total_seconds (t - d)) (whole (- k))); [destruct (cycle rec) as [r'|]; [cbn [bind]; apply IH|discriminate]|].
        destruct (f64_lt (whole k) (total_seconds (t - d))).
        { intros H. apply main_ge in H. destruct o as [i|]; [|reflexivity]. cbn [unless_moved]. replace (i =? idat) with false by (symmetry; apply Z.eqb_neq; lia). reflexivity. }
        destruct (cycle rec) as [r'|]; [cbn [bind]|discriminate]. destruct (r' <? records).
        * destruct (getE dtime r'); [cbn [bind]|discriminate]. destruct (descend_f _ _ _ _ _ _ _ _ _); [cbn [bind]|discriminate]. intros [= <- <-]. cbn [unless_moved]. rewrite Z.eqb_refl. reflexivity.
        * intros [= <- <-]. cbn [unless_moved]. rewrite Z.eqb_refl. reflexivity.
      + destruct (idat =? 0); [destruct last as [s|]; [|discriminate]; destruct (f64_lt _ _)|]; intros [= <- <-]; cbn [unless_moved]; rewrite ?Z.eqb_refl; reflexivity.
  Qed.
  Lemma from_t rec idat o r : match_from_f records dtime cycle dat k rec idat = Ok (o, r) ->
    match_from_t records dtime cycle dat (whole k) rec idat = unless_moved idat o r.
  Proof using K.
    unfold match_from_f, match_from_t. destruct (getE dtime rec) as [t|]; [cbn [bind]|discriminate]. destruct (getE dat idat) as [d|]; [cbn [bind]|discriminate].
    destruct (t =? d); [intros [= <- <-]; cbn [unless_moved]; rewrite Z.eqb_refl; reflexivity|apply main_t].
  Qed.
  (** Where the data before the first boundary end. *)
  Lemma skip_to first i0 : forall fuel idat, 0 <= idat <= i0 -> i0 < zlen dat -> (Z.to_nat (i0 - idat) < fuel)%nat ->
    (forall j, idat <= j < i0 -> tm dat j < first) -> first <= tm dat i0 ->
    skip_early dat fuel idat first = Ok (Some i0).
  Proof using.
    clear K. induction fuel as [|fuel IH]; intros idat I L F E S; [lia|]. cbn [skip_early]. rewrite getE_tm by lia. cbn [bind].
    destruct (Z.eq_dec idat i0) as [->|N].
    - replace (tm dat i0 <? first) with false by (symmetry; apply Z.ltb_ge; lia). reflexivity.
    - replace (tm dat idat <? first) with true by (symmetry; apply Z.ltb_lt; apply E; lia).
      replace (zlen dat <=? idat + 1) with false by (symmetry; apply Z.leb_gt; lia). apply IH; [lia|lia|lia| |exact S]. intros j J. apply E. lia.
  Qed.
  Lemma skip_all first : forall fuel idat, 0 <= idat < zlen dat -> (Z.to_nat (zlen dat - idat) <= fuel)%nat ->
    (forall j, idat <= j < zlen dat -> tm dat j < first) -> skip_early dat fuel idat first = Ok None.
  Proof using.
    clear K. induction fuel as [|fuel IH]; intros idat I F E; [lia|]. cbn [skip_early]. rewrite getE_tm by lia. cbn [bind].
    replace (tm dat idat <? first) with true by (symmetry; apply Z.ltb_lt; apply E; lia).
    destruct (zlen dat <=? idat + 1) eqn:L; [reflexivity|]. apply Z.leb_gt in L. apply IH; [lia|lia|]. intros j J. apply E. lia.
  Qed.
End Tol.
Lemma main_t_stays records dtime cycle dat tol fuel : forall rec idat last o r,
  main_loop_t records dtime cycle dat tol fuel rec idat last = Ok (o, r) -> o = Some idat.
Proof.
  induction fuel as [|fuel IH]; intros rec idat last o r; cbn [main_loop_t].
  - destruct (_ && _); [discriminate|]. destruct (idat =? 0); [destruct last as [s|]; [|discriminate]; destruct (f64_lt _ _); [discriminate|]|]; intros [= <- <-]; reflexivity.
  - destruct (_ && _).
    + destruct (getE dtime rec) as [t|]; [cbn [bind]|discriminate]. destruct (getE dat idat) as [d|]; [cbn [bind]|discriminate].
      destruct (f64_lt _ _); [destruct (cycle rec) as [r'|]; [cbn [bind]; apply IH|discriminate]|].
      destruct (f64_lt _ _); [discriminate|].
      destruct (cycle rec) as [r'|]; [cbn [bind]|discriminate]. destruct (r' <? records).
      * destruct (getE dtime r'); [cbn [bind]|discriminate]. destruct (descend_f _ _ _ _ _ _ _ _ _); [cbn [bind]|discriminate]. intros [= <- <-]. reflexivity.
      * intros [= <- <-]. reflexivity.
    + destruct (idat =? 0); [destruct last as [s|]; [|discriminate]; destruct (f64_lt _ _); [discriminate|]|]; intros [= <- <-]; reflexivity.
Qed.

(** From a record on, the tolerance 60.0 does what 60 does as long as the index of the data stays
    where it is.  Where 60 moves on to later data, or says that there is no match, 60.0 is a
    ValueError. *)
Theorem C186_same_or_error :
  forall b dat idat k min_merit max_merit kwargs o b',
    same_age (b_dtime b) dat -> 0 <= k <= 1099511627776 -> 0 <= b_rec_ind b ->
    match_data_ocb b dat idat k min_merit max_merit kwargs = Ok (o, b') ->
    (o = Some idat -> match_data_ocb_t b dat idat (whole k) min_merit max_merit kwargs = Ok (o, b')) /\
    (o <> Some idat -> match_data_ocb_t b dat idat (whole k) min_merit max_merit kwargs = Err ValueError).
Proof.
  intros b dat idat k mn mx ks o b' N K R H. rewrite <- C181_exact_times_partial in H by (first [exact N|lia]). revert H.
  unfold match_data_ocb_f, match_data_ocb_t. destruct (zlen dat <=? idat); [intros [= <- <-]; split; [reflexivity|congruence]|].
  destruct (b_records b <=? b_rec_ind b); [intros [= <- <-]; split; [reflexivity|congruence]|].
  unfold match_core_f, match_core_t. replace (b_rec_ind b <? 0) with false by (symmetry; apply Z.ltb_ge; exact R).
  destruct (match_from_f _ _ _ _ _ _ _) as [[o1 r1]|] eqn:M; [|discriminate]. intros [= <- <-]. rewrite (from_t _ _ _ _ _ K _ _ _ _ M).
  unfold unless_moved. destruct o1 as [i|]; [destruct (i =? idat) eqn:E|].
  - split; [reflexivity|]. apply Z.eqb_eq in E. congruence.
  - apply Z.eqb_neq in E. split; [congruence|reflexivity].
  - split; [discriminate|reflexivity].
Qed.
(** At the start the data more than 60 s before the first good record r are passed over without
    an error, and the same holds for the first index i after them. *)
Theorem C186_from_the_start :
  forall b dat idat k min_merit max_merit kwargs r,
    same_age (b_dtime b) dat -> 0 <= k <= 1099511627776 -> wf_boundary b -> b_rec_ind b < 0 -> 0 <= idat < zlen dat ->
    next_rec b min_merit max_merit kwargs (b_rec_ind b) = Ok r -> 0 <= r ->
    (b_records b <= r \/ (forall j, idat <= j < zlen dat -> tm dat j < tm (b_dtime b) r - k * 1000000) ->
       match_data_ocb_t b dat idat (whole k) min_merit max_merit kwargs = match_data_ocb b dat idat k min_merit max_merit kwargs) /\
    (forall i o b', r < b_records b -> idat <= i < zlen dat ->
       (forall j, idat <= j < i -> tm dat j < tm (b_dtime b) r - k * 1000000) -> tm (b_dtime b) r - k * 1000000 <= tm dat i ->
       match_data_ocb b dat idat k min_merit max_merit kwargs = Ok (o, b') ->
       (o = Some i -> match_data_ocb_t b dat idat (whole k) min_merit max_merit kwargs = Ok (o, b')) /\
       (o <> Some i -> match_data_ocb_t b dat idat (whole k) min_merit max_merit kwargs = Err ValueError)).
Proof.
  intros b dat idat k mn mx ks r N K W R I NR R0. rewrite <- C181_exact_times_partial by (first [exact N|lia]).
  destruct W as (W1 & W2 & _).
  unfold match_data_ocb_f, match_data_ocb_t. replace (zlen dat <=? idat) with false by (symmetry; apply Z.leb_gt; lia).
  replace (b_records b <=? b_rec_ind b) with false by (symmetry; apply Z.leb_gt; lia).
  unfold match_core_f, match_core_t. replace (b_rec_ind b <? 0) with true by (symmetry; apply Z.ltb_lt; exact R). rewrite NR, (timedelta_whole k K). cbn [bind]. change usec with 1000000. split.
  - intros H. destruct (b_records b <=? r) eqn:L; [reflexivity|]. apply Z.leb_gt in L. destruct H as [H|H]; [lia|].
    rewrite getE_tm by lia. cbn [bind]. rewrite skip_all; [reflexivity|exact I|lia|exact H].
  - intros i o b' L J E S. replace (b_records b <=? r) with false by (symmetry; apply Z.leb_gt; exact L).
    rewrite getE_tm by lia. cbn [bind]. rewrite (skip_to dat _ i); [|lia|lia|lia|exact E|exact S]. cbn [bind].
    destruct (match_from_f _ _ _ _ _ _ _) as [[o1 r1]|] eqn:M; [|discriminate]. intros [= <- <-]. rewrite (from_t _ _ _ _ _ K _ _ _ _ M).
    unfold unless_moved. destruct o1 as [j|]; [destruct (j =? i) eqn:Q|].
    + split; [reflexivity|]. apply Z.eqb_eq in Q. congruence.
    + apply Z.eqb_neq in Q. split; [congruence|reflexivity].
    + split; [discriminate|reflexivity].
Qed.
(** With any float as tolerance, a call from a record on that returns, returns the index given. *)
Theorem C186_never_moves :
  forall b dat idat max_tol min_merit max_merit kwargs o b',
    0 <= b_rec_ind b -> match_data_ocb_t b dat idat max_tol min_merit max_merit kwargs = Ok (o, b') -> o = Some idat.
Proof.
  intros b dat idat tol mn mx ks o b' R. unfold match_data_ocb_t. destruct (zlen dat <=? idat); [congruence|].
  destruct (b_records b <=? b_rec_ind b); [congruence|]. unfold match_core_t. replace (b_rec_ind b <? 0) with false by (symmetry; apply Z.ltb_ge; exact R).
  destruct (match_from_t _ _ _ _ _ _ _) as [[o1 r1]|] eqn:M; [|discriminate]. intros [= <- <-]. revert M. unfold match_from_t.
  destruct (getE _ _) as [t|]; [cbn [bind]|discriminate]. destruct (getE _ _) as [d|]; [cbn [bind]|discriminate].
  destruct (t =? d); [congruence|]. apply main_t_stays.
Qed.
Section Within.
  Variables (records : Z) (dtime : list Z) (cycle : Z -> res Z) (dat : list Z) (tol : f64).
  Hypothesis N : same_age dtime dat.
  Hypothesis F : is_finite tol = true.
  Definition near (d r : Z) (s : f64) : Prop := exists t, getE dtime r = Ok t /\ s = total_seconds (t - d).
  Lemma near_fin d r s : In d dat -> near d r s -> is_finite s = true /\ is_finite (f64_abs s) = true /\ B2R (f64_abs s) = Rabs (B2R s).
  Proof using N.
    intros D (t & T & ->). assert (A : Z.abs (t - d) <= far) by (apply N; [exact (get_In _ _ _ T)|exact D]). destruct (sec_R _ A) as [_ FA].
    split; [exact FA|]. unfold f64_abs. rewrite is_finite_Babs, B2R_Babs. split; [exact FA|reflexivity].
  Qed.
  Lemma descend_near fuel : forall d rec s l lastr r, In d dat -> near d lastr l -> (Rabs (B2R l) <= B2R tol)%R ->
    (near d rec s \/ f64_lt (f64_abs s) (f64_abs l) = false) ->
    descend_f records dtime cycle fuel d rec s l lastr = Ok r -> exists q, near d r q /\ (Rabs (B2R q) <= B2R tol)%R.
  Proof using N.
    induction fuel as [|fuel IH]; intros d rec s l lastr r D L B S; cbn [descend_f]; (destruct (f64_lt (f64_abs s) (f64_abs l)) eqn:E; [|intros [= <-]; exists l; split; assumption]); [discriminate|].
    destruct S as [S|S]; [|discriminate S].
    assert (Q : (Rabs (B2R s) <= B2R tol)%R).
    { destruct (near_fin _ _ _ D S) as (_ & FS & AS). destruct (near_fin _ _ _ D L) as (_ & FL & AL). apply lt_true in E; [|exact FS|exact FL].
      rewrite AS, AL in E. lra. }
    destruct (cycle rec) as [r'|]; [cbn [bind]|discriminate]. destruct (r' <? records).
    - destruct (getE dtime r') as [t|] eqn:T; [cbn [bind]|discriminate]. apply IH; [exact D|exact S|exact Q|]. left. exists t. now split.
    - apply IH; [exact D|exact S|exact Q|]. right. destruct (near_fin _ _ _ D S) as (_ & FS & _).
      destruct (f64_lt (f64_abs s) (f64_abs s)) eqn:X; [|reflexivity]. apply lt_true in X; [lra|exact FS|exact FS].
  Qed.
  Lemma main_near fuel : forall rec idat last o r, main_loop_t records dtime cycle dat tol fuel rec idat last = Ok (o, r) -> idat < zlen dat -> r < records ->
    exists d q, getE dat idat = Ok d /\ near d r q /\ (Rabs (B2R q) <= B2R tol)%R.
  Proof using N F.
    assert (END : forall rec idat last (o : option Z) r, (idat <? zlen dat) && (rec <? records) = false -> (if idat =? 0 then match last with None => Err NameError | Some sdiff => if f64_lt tol (f64_abs sdiff) then Err ValueError else Ok (Some idat, rec) end else Ok (Some idat, rec)) = Ok (o, r) -> idat < zlen dat -> r < records -> False).
    { intros rec idat last o r C H I R. apply Z.ltb_lt in I. rewrite I in C. cbn in C. apply Z.ltb_ge in C.
      destruct (idat =? 0); [destruct last as [s|]; [|discriminate]; destruct (f64_lt _ _); [discriminate|]|]; injection H as _ <-; lia. }
    induction fuel as [|fuel IH]; intros rec idat last o r; cbn [main_loop_t]; destruct (_ && _) eqn:C; try (intros H I R; exfalso; exact (END _ _ _ _ _ C H I R)); [discriminate|].
    destruct (getE dtime rec) as [t|] eqn:T; [cbn [bind]|discriminate]. destruct (getE dat idat) as [d|] eqn:G; [cbn [bind]|discriminate].
    assert (D : In d dat) by exact (get_In _ _ _ G). assert (S : near d rec (total_seconds (t - d))) by (exists t; now split).
    destruct (near_fin _ _ _ D S) as (FS & _). assert (FO : is_finite (f64_opp tol) = true) by (unfold f64_opp; now rewrite is_finite_Bopp).
    destruct (f64_lt (total_seconds (t - d)) (f64_opp tol)) eqn:E1.
    { destruct (cycle rec) as [r'|]; [cbn [bind]|discriminate]. intros H I R. destruct (IH _ _ _ _ _ H I R) as (d' & q & G' & X). exists d', q. split; [congruence|exact X]. }
    destruct (f64_lt tol (total_seconds (t - d))) eqn:E2; [discriminate|].
    assert (B : (Rabs (B2R (total_seconds (t - d))) <= B2R tol)%R).
    { apply Rabs_le. split; apply Rnot_lt_le; intros X.
      - enough (f64_lt (total_seconds (t - d)) (f64_opp tol) = true) by congruence. apply lt_true; [exact FS|exact FO|]. unfold f64_opp. rewrite B2R_Bopp. exact X.
      - enough (f64_lt tol (total_seconds (t - d)) = true) by congruence. apply lt_true; [exact F|exact FS|exact X]. }
    destruct (cycle rec) as [r'|]; [cbn [bind]|discriminate]. destruct (r' <? records).
    - destruct (getE dtime r') as [t'|] eqn:T'; [cbn [bind]|discriminate]. destruct (descend_f _ _ _ _ _ _ _ _ _) as [r2|] eqn:DE; [cbn [bind]|discriminate].
      intros [= <- <-] I R. assert (S' : near d r' (total_seconds (t' - d))) by (exists t'; now split). destruct (descend_near _ _ _ _ _ _ _ D S B (or_introl S') DE) as (q & Q1 & Q2). exists d, q. split; [reflexivity|]. split; assumption.
    - intros [= <- <-] I R. exists d, (total_seconds (t - d)). split; [reflexivity|]. split; assumption.
  Qed.
End Within.

(** ... and the record it stops at is within the tolerance, to half a microsecond. *)
Theorem C186_within :
  forall b dat idat max_tol min_merit max_merit kwargs o b',
    same_age (b_dtime b) dat -> is_finite max_tol = true -> (0 <= B2R max_tol)%R ->
    0 <= b_rec_ind b < b_records b -> idat < zlen dat ->
    match_data_ocb_t b dat idat max_tol min_merit max_merit kwargs = Ok (o, b') -> b_rec_ind b' < b_records b ->
    exists t d, getE (b_dtime b) (b_rec_ind b') = Ok t /\ getE dat idat = Ok d /\
      (Rabs (IZR (t - d)) < B2R max_tol * 1000000 + / 2)%R.
Proof.
  intros b dat idat tol mn mx ks o b' N F P R I. unfold match_data_ocb_t. replace (zlen dat <=? idat) with false by (symmetry; apply Z.leb_gt; exact I).
  replace (b_records b <=? b_rec_ind b) with false by (symmetry; apply Z.leb_gt; lia). unfold match_core_t. replace (b_rec_ind b <? 0) with false by (symmetry; apply Z.ltb_ge; lia).
  destruct (match_from_t _ _ _ _ _ _ _) as [[o1 r1]|] eqn:M; [|discriminate]. intros [= <- <-] L. revert M L. cbn [set_rec_ind b_rec_ind]. unfold match_from_t.
  destruct (getE (b_dtime b) (b_rec_ind b)) as [t|] eqn:T; [cbn [bind]|discriminate]. destruct (getE dat idat) as [d|] eqn:G; [cbn [bind]|discriminate].
  destruct (t =? d) eqn:E.
  - intros [= <- <-] L. exists t, d. split; [exact T|]. split; [reflexivity|]. apply Z.eqb_eq in E. subst d. rewrite Z.sub_diag, Rabs_R0. lra.
  - intros M L. destruct (main_near _ _ _ _ _ N F _ _ _ _ _ _ M I L) as (d' & q & G' & (t' & T' & ->) & B). exists t', d'. split; [exact T'|]. split; [congruence|].
    assert (A : Z.abs (t' - d') <= far) by (apply N; [exact (get_In _ _ _ T')|exact (get_In _ _ _ G')]). destruct (sec_R _ A) as [RS _]. rewrite RS in B.
    pose proof (close_rnd _ (sec_abs _ A)) as C. set (x := (IZR (t' - d') / 1000000)%R) in *. replace (IZR (t' - d')) with (x * 1000000)%R by (unfold x; lra).
    rewrite Rabs_mult, (Rabs_pos_eq 1000000) by lra. pose proof (Rabs_triang (rnd x) (x - rnd x)) as TR. replace (rnd x + (x - rnd x))%R with x in TR by ring. rewrite (Rabs_minus_sym x) in TR. lra.
Qed.
(** The same for any other way of cycling, such as that of a DualBoundary. *)
Theorem C186_any_cycle :
  forall records dtime cycle dat k rec idat o r,
    same_age dtime dat -> 0 <= k <= 1099511627776 -> 0 <= rec ->
    match_core records dtime cycle dat (k * 1000000) rec idat = Ok (o, r) ->
    (o = Some idat -> match_core_t records dtime cycle dat (whole k) rec idat = Ok (o, r)) /\
    (o <> Some idat -> match_core_t records dtime cycle dat (whole k) rec idat = Err ValueError).
Proof.
  intros records dtime cycle dat k rec idat o r N K R H. rewrite <- C181_any_cycle_partial in H by (first [exact N|lia]). revert H.
  unfold match_core_f, match_core_t. replace (rec <? 0) with false by (symmetry; apply Z.ltb_ge; exact R).
  intros M. rewrite (from_t _ _ _ _ _ K _ _ _ _ M). unfold unless_moved. destruct o as [i|]; [destruct (i =? idat) eqn:E|].
  - split; [reflexivity|]. apply Z.eqb_eq in E. congruence.
  - apply Z.eqb_neq in E. split; [congruence|reflexivity].
  - split; [discriminate|reflexivity].
Qed.
(** So 60.0 does not do what 60 does: two measurements, the first too early. *)
Theorem C186_int_float_refuted :
  exists b dat b', wf_boundary b /\ strictly_time_sorted (b_dtime b) /\ time_sorted dat /\ same_age (b_dtime b) dat /\ b_rec_ind b = 0 /\
    match_data_ocb b dat 0 60 None None [] = Ok (Some 1, b') /\ match_data_ocb_t b dat 0 (whole 60) None None [] = Err ValueError.
Proof.
  exists (mkB 2 0 [100000000; 200000000] [Fin 2; Fin 2] (Fin 1) (Fin 4) []), [0; 100000000].
  eexists. split; [|split; [|split; [|split; [|split; [reflexivity|split; vm_compute; reflexivity]]]]].
  - split; [cbn; lia|]. split; [reflexivity|]. split; [reflexivity|]. intros k l. unfold getattr. cbn.
    destruct (String.eqb k "fom"); [intros [= <-]; reflexivity|]. destruct (String.eqb k "dtime"); [intros [= <-]; reflexivity|discriminate].
  - intros i j H1 H2. change (j < 2) in H2. assert (i = 0) as -> by lia. assert (j = 1) as -> by lia. reflexivity.
  - intros i j H1 H2. change (j < 2) in H2. assert (i = 0 /\ j = 0 \/ i = 0 /\ j = 1 \/ i = 1 /\ j = 1) as [[-> ->]|[[-> ->]|[-> ->]]] by lia; vm_compute; discriminate.
  - intros t d T D. cbn in T, D. destruct T as [<-|[<-|[]]], D as [<-|[<-|[]]]; vm_compute; discriminate.
Qed.

(** The boundary of C07 from its start: the tolerance 60.0 matches 119 s with 120 s. *)
Example C186_case :
  same_age (b_dtime (ex_b (-1))) [119 * usec; 170 * usec] /\
  match_data_ocb_t (ex_b (-1)) [119 * usec; 170 * usec] 0 (whole 60) (Some NInf) (Some PInf) [("r", ("min", Fin 0))]
  = match_data_ocb (ex_b (-1)) [119 * usec; 170 * usec] 0 60 (Some NInf) (Some PInf) [("r", ("min", Fin 0))] /\
  match_data_ocb_t (ex_b 0) [170 * usec; 171 * usec] 0 (whole 60) (Some NInf) (Some PInf) [] = match_data_ocb (ex_b 0) [170 * usec; 171 * usec] 0 60 (Some NInf) (Some PInf) [].
Proof. split; [exact (proj1 C181_case)|]. split; vm_compute; reflexivity. Qed.

Print Assumptions C186_same_or_error.
Print Assumptions C186_from_the_start.
Print Assumptions C186_never_moves.
Print Assumptions C186_within.
Print Assumptions C186_any_cycle.
Print Assumptions C186_int_float_refuted.
