(** C187: pairing with a maximum time difference that is a float. *)
From Coq Require Import String ZArith QArith Reals List Bool Lia.
From Flocq Require Import Core BinarySingleNaN.
From Verif Require Import PyBase CycleModel CycleSpec CycleProofs DualModel FloatModel FtimeModel FmatchModel FmatchProofs PropertiesFmatch FmidModel FtolModel PropertiesFtol FdualModel.
Import ListNotations.
Open Scope string_scope.
Open Scope list_scope.
Open Scope Z_scope.

Lemma scan_ge b mn mx ks : forall fuel i j, scan fuel b mn mx ks i = Ok j -> i <= j.
Proof.
  induction fuel as [|fuel IH]; intros i j; cbn [scan]; (destruct (i <? b_records b); [|intros [= <-]; lia]); [discriminate|].
  destruct (crits_good b i ks) as [[|]|]; cbn [bind]; [|intros H; apply IH in H; lia|discriminate].
  destruct (getE (b_fom b) i) as [tv|]; cbn [bind]; [|discriminate]. destruct (_ && _); [intros [= <-]; lia|]. intros H. apply IH in H. lia.
Qed.
Lemma next_gt b mn mx ks i j : next_rec b mn mx ks i = Ok j -> i < j.
Proof. intros H. apply scan_ge in H. lia. Qed.

Section Rec.
  Variables (records : Z) (dtime : list Z) (cycle : Z -> res Z) (dat : list Z) (tol : f64).
  Hypothesis UP : forall i j, cycle i = Ok j -> i < j.
  Lemma descend_ge fuel : forall d rec s l lastr r, 0 <= rec -> 0 <= lastr -> descend_f records dtime cycle fuel d rec s l lastr = Ok r -> 0 <= r.
  Proof using UP.
    induction fuel as [|fuel IH]; intros d rec s l lastr r R L; cbn [descend_f]; (destruct (f64_lt _ _); [|intros [= <-]; exact L]); [discriminate|].
    destruct (cycle rec) as [r'|] eqn:C; [cbn [bind]|discriminate]. apply UP in C. destruct (r' <? records).
    - destruct (getE dtime r'); [cbn [bind]|discriminate]. apply IH; lia.
    - apply IH; lia.
  Qed.
  Lemma main_rec_ge fuel : forall rec idat last o r, 0 <= rec -> main_loop_t records dtime cycle dat tol fuel rec idat last = Ok (o, r) -> 0 <= r.
  Proof using UP.
    assert (END : forall rec idat (last : option f64) (o : option Z) r, 0 <= rec -> (if idat =? 0 then match last with None => Err NameError | Some sdiff => if f64_lt tol (f64_abs sdiff) then Err ValueError else Ok (Some idat, rec) end else Ok (Some idat, rec)) = Ok (o, r) -> 0 <= r).
    { intros rec idat last o r R. destruct (idat =? 0); [destruct last as [s|]; [|discriminate]; destruct (f64_lt _ _); [discriminate|]|]; intros [= _ <-]; exact R. }
    induction fuel as [|fuel IH]; intros rec idat last o r R; cbn [main_loop_t]; (destruct (_ && _); [|apply END; exact R]); [discriminate|].
    destruct (getE dtime rec) as [t|]; [cbn [bind]|discriminate]. destruct (getE dat idat) as [d|]; [cbn [bind]|discriminate].
    destruct (f64_lt _ _). { destruct (cycle rec) as [r'|] eqn:C; [cbn [bind]|discriminate]. apply UP in C. apply IH. lia. }
    destruct (f64_lt _ _); [discriminate|]. destruct (cycle rec) as [r'|] eqn:C; [cbn [bind]|discriminate]. apply UP in C. destruct (r' <? records); [|intros [= <- <-]; exact R].
    destruct (getE dtime r'); [cbn [bind]|discriminate]. destruct (descend_f _ _ _ _ _ _ _ _ _) eqn:D; [cbn [bind]|discriminate]. intros [= <- <-]. revert D. apply descend_ge; lia.
  Qed.
  Lemma from_rec_ge rec idat o r : 0 <= rec -> match_from_t records dtime cycle dat tol rec idat = Ok (o, r) -> 0 <= r.
  Proof using UP.
    intros R. unfold match_from_t. destruct (getE dtime rec) as [t|]; [cbn [bind]|discriminate]. destruct (getE dat idat) as [d|]; [cbn [bind]|discriminate].
    destruct (t =? d); [intros [= <- <-]; exact R|apply main_rec_ge; exact R].
  Qed.
  Lemma core_rec_ge rec idat o r : -1 <= rec -> match_core_t records dtime cycle dat tol rec idat = Ok (o, r) -> 0 <= r.
  Proof using UP.
    intros R. unfold match_core_t. destruct (rec <? 0) eqn:N; [|apply Z.ltb_ge in N; apply from_rec_ge; exact N].
    destruct (cycle rec) as [r1|] eqn:C; [cbn [bind]|discriminate]. apply UP in C. destruct (records <=? r1); [intros [= <- <-]; lia|].
    destruct (getE dtime r1); [cbn [bind]|discriminate]. destruct (timedelta_seconds tol); [cbn [bind]|discriminate]. destruct (skip_early _ _ _ _) as [[i|]|]; cbn [bind]; [|intros [= <- <-]; lia|discriminate].
    apply from_rec_ge. lia.
  Qed.
End Rec.

Lemma match_moves b dat idat tol mn mx ks o b' : match_data_ocb_t b dat idat tol mn mx ks = Ok (o, b') -> -1 <= b_rec_ind b < b_records b -> idat < zlen dat ->
  0 <= b_rec_ind b' /\ exists r, b' = set_rec_ind b r.
Proof.
  unfold match_data_ocb_t. intros H R I. revert H. replace (zlen dat <=? idat) with false by (symmetry; apply Z.leb_gt; exact I).
  replace (b_records b <=? b_rec_ind b) with false by (symmetry; apply Z.leb_gt; lia).
  destruct (match_core_t _ _ _ _ _ _ _) as [[o1 r1]|] eqn:M; [|discriminate]. intros [= <- <-]. cbn. split; [|now exists r1].
  revert M. apply core_rec_ge; [|lia]. intros i j. apply next_gt.
Qed.
(** From an EAB record on, only one OCB record is ever paired. *)
Lemma pair_stays odat good tol mn mx ks : forall fuel e i ps, pair_loop_t fuel e odat good i tol mn mx ks = Ok ps ->
  0 <= b_rec_ind e -> i < zlen odat -> forall p, In p ps -> getE good i = Ok (fst p).
Proof.
  induction fuel as [|fuel IH]; intros e i ps; cbn [pair_loop_t]; (destruct (b_rec_ind e <? b_records e) eqn:LT; [|intros [= <-] _ _ p []]); [discriminate|].
  destruct (match_data_ocb_t _ _ _ _ _ _ _) as [[o e1]|] eqn:M; [cbn [bind]|discriminate]. intros H R I. apply Z.ltb_lt in LT.
  pose proof (C186_never_moves _ _ _ _ _ _ _ _ _ R M) as ->. destruct (match_moves _ _ _ _ _ _ _ _ _ M ltac:(lia) I) as [R1 _].
  destruct (_ && _).
  - destruct (getE good i) as [io|] eqn:G; [cbn [bind] in H|discriminate]. unfold get_next_good_ocb_ind in H.
    destruct (next_rec _ _ _ _ _) as [r2|] eqn:NX; [cbn [bind] in H|discriminate]. destruct (pair_loop_t _ _ _ _ _ _ _ _ _) as [rest|] eqn:PL; [cbn [bind] in H|discriminate].
    injection H as <-. intros p [<-|P]; [reflexivity|]. rewrite <- G. apply (IH _ _ _ PL); [|exact I|exact P]. cbn. apply next_gt in NX. lia.
  - destruct (b_rec_ind e1 <? b_records e1); [destruct (get_next_good_ocb_ind _ _ _ _); [cbn [bind] in H|discriminate]|]; injection H as <-; intros p [].
Qed.
Lemma pick_len l : forall idx r, pick l idx = Ok r -> zlen r = zlen idx.
Proof.
  induction idx as [|i idx IH]; intros r; cbn [pick]; [intros [= <-]; reflexivity|]. destruct (getE l i); [cbn [bind]|discriminate].
  destruct (pick l idx) as [q|]; [cbn [bind]|discriminate]. intros [= <-]. specialize (IH q eq_refl). unfold zlen in *. cbn [length]. lia.
Qed.
Lemma pick_In l : forall idx r t, pick l idx = Ok r -> In t r -> In t l.
Proof.
  induction idx as [|i idx IH]; intros r t; cbn [pick]; [intros [= <-] []|]. destruct (getE l i) eqn:G; [cbn [bind]|discriminate].
  destruct (pick l idx) as [q|]; [cbn [bind]|discriminate]. intros [= <-] [<-|H]; [exact (get_In _ _ _ G)|exact (IH q t eq_refl H)].
Qed.

(** Whatever the float, all pairs found have the same OCB record. *)
Theorem C187_one_ocb :
  forall ocb eab max_delta omn omx oks emn emx eks pairs,
    dual_pairs_t ocb eab max_delta omn omx oks emn emx eks = Ok pairs ->
    forall p q, In p pairs -> In q pairs -> fst p = fst q.
Proof.
  intros ocb eab tol omn omx oks emn emx eks pairs. unfold dual_pairs_t. destruct (retrieve_all_good_indices _ _ _ _) as [[good ocb1]|]; [cbn [bind]|discriminate].
  destruct (pick _ _) as [odat|] eqn:PK; [cbn [bind]|discriminate]. apply pick_len in PK. set (fuel := S (Z.to_nat _)). cbn [pair_loop_t].
  destruct (b_rec_ind (set_rec_ind eab (-1)) <? b_records (set_rec_ind eab (-1))) eqn:LT; [|intros [= <-] p q []]. apply Z.ltb_lt in LT.
  destruct (match_data_ocb_t _ _ _ _ _ _ _) as [[o e1]|] eqn:M; [cbn [bind]|discriminate].
  destruct o as [i|]; [|destruct (b_rec_ind e1 <? b_records e1); [destruct (get_next_good_ocb_ind _ _ _ _); [cbn [bind]|discriminate]|]; intros [= <-] p q []].
  destruct ((i <? zlen good) && _) eqn:C; [|destruct (b_rec_ind e1 <? b_records e1); [destruct (get_next_good_ocb_ind _ _ _ _); [cbn [bind]|discriminate]|]; intros [= <-] p q []].
  apply andb_true_iff in C. destruct C as [C1 C2]. apply Z.ltb_lt in C1. apply Z.ltb_lt in C2.
  destruct (getE good i) as [io|] eqn:G; [cbn [bind]|discriminate]. unfold get_next_good_ocb_ind. destruct (next_rec _ _ _ _ _) as [r2|] eqn:NX; [cbn [bind]|discriminate].
  destruct (pair_loop_t _ _ _ _ _ _ _ _ _) as [rest|] eqn:PL; [cbn [bind]|discriminate]. intros [= <-].
  assert (R : 0 <= b_rec_ind (set_rec_ind e1 r2)).
  { cbn. apply next_gt in NX. enough (-1 <= b_rec_ind e1) by lia. revert M. unfold match_data_ocb_t. destruct (zlen odat <=? 0); [intros [= _ <-]; cbn; lia|].
    destruct (_ <=? _); [intros [= _ <-]; cbn; lia|]. destruct (match_core_t _ _ _ _ _ _ _) as [[o1 r1]|] eqn:M; [|discriminate]. intros [= _ <-]. cbn.
    enough (0 <= r1) by lia. revert M. apply core_rec_ge; [intros x y; apply next_gt|cbn; lia]. }
  assert (S : forall p, In p ((io, b_rec_ind e1) :: rest) -> fst p = io).
  { intros p [<-|P]; [reflexivity|]. pose proof (pair_stays _ _ _ _ _ _ _ _ _ _ PL R ltac:(lia) p P) as Q. congruence. }
  intros p q P Q. rewrite (S p P), (S q Q). reflexivity.
Qed.

(** One call: the same or a ValueError. *)
Lemma match_t_or b dat idat k mn mx ks x : same_age (b_dtime b) dat -> 0 <= k <= 1099511627776 ->
  match_data_ocb b dat idat k mn mx ks = Ok x -> match_data_ocb_t b dat idat (whole k) mn mx ks = Ok x \/ match_data_ocb_t b dat idat (whole k) mn mx ks = Err ValueError.
Proof.
  intros N K H. rewrite <- C181_exact_times_partial in H by (first [exact N|lia]). revert H.
  unfold match_data_ocb_f, match_data_ocb_t. destruct (zlen dat <=? idat); [now left|]. destruct (b_records b <=? b_rec_ind b); [now left|].
  assert (FT : forall rec i y, match_from_f (b_records b) (b_dtime b) (next_rec b mn mx ks) dat k rec i = Ok y ->
    match_from_t (b_records b) (b_dtime b) (next_rec b mn mx ks) dat (whole k) rec i = Ok y \/ match_from_t (b_records b) (b_dtime b) (next_rec b mn mx ks) dat (whole k) rec i = Err ValueError).
  { intros rec i [o r] M. rewrite (from_t _ _ _ _ _ K _ _ _ _ M). unfold unless_moved. destruct o as [j|]; [destruct (j =? i)|]; auto. }
  assert (CT : forall y, match_core_f (b_records b) (b_dtime b) (next_rec b mn mx ks) dat k (b_rec_ind b) idat = Ok y ->
    match_core_t (b_records b) (b_dtime b) (next_rec b mn mx ks) dat (whole k) (b_rec_ind b) idat = Ok y \/ match_core_t (b_records b) (b_dtime b) (next_rec b mn mx ks) dat (whole k) (b_rec_ind b) idat = Err ValueError).
  { intros y. unfold match_core_f, match_core_t. destruct (b_rec_ind b <? 0); [|apply FT]. rewrite (timedelta_whole k K). change usec with 1000000.
    destruct (next_rec _ _ _ _ _) as [r1|]; [cbn [bind]|discriminate]. destruct (b_records b <=? r1); [now left|]. destruct (getE _ _); [cbn [bind]|discriminate].
    destruct (skip_early _ _ _ _) as [[i|]|]; cbn [bind]; [apply FT|now left|discriminate]. }
  destruct (match_core_f _ _ _ _ _ _ _) as [y|] eqn:M; [|discriminate]. destruct (CT y eq_refl) as [->| ->]; [|right; reflexivity]. intros <-. left. reflexivity.
Qed.
Lemma match_dtime b dat idat k mn mx ks o b' : match_data_ocb b dat idat k mn mx ks = Ok (o, b') -> b_dtime b' = b_dtime b.
Proof.
  unfold match_data_ocb. destruct (zlen dat <=? idat); [congruence|]. destruct (_ <=? _); [congruence|].
  destruct (match_core _ _ _ _ _ _ _) as [[o1 r1]|]; [|discriminate]. intros [= <- <-]. reflexivity.
Qed.
Lemma pair_t_or odat good k mn mx ks : 0 <= k <= 1099511627776 -> forall fuel e i ps, same_age (b_dtime e) odat ->
  pair_loop fuel e odat good i k mn mx ks = Ok ps ->
  pair_loop_t fuel e odat good i (whole k) mn mx ks = Ok ps \/ pair_loop_t fuel e odat good i (whole k) mn mx ks = Err ValueError.
Proof.
  intros K. induction fuel as [|fuel IH]; intros e i ps N; cbn [pair_loop pair_loop_t]; (destruct (b_rec_ind e <? b_records e); [|now left]); [discriminate|].
  destruct (match_data_ocb _ _ _ _ _ _ _) as [[o e1]|] eqn:M; [cbn [bind]|discriminate]. pose proof (match_dtime _ _ _ _ _ _ _ _ _ M) as DT.
  destruct (match_t_or _ _ _ _ _ _ _ _ N K M) as [->| ->]; [cbn [bind]|now right].
  destruct o as [j|]; [|now left]. destruct (_ && _); [|now left]. destruct (getE good j) as [io|]; [cbn [bind]|discriminate].
  unfold get_next_good_ocb_ind. destruct (next_rec _ _ _ _ _) as [r2|]; [cbn [bind]|discriminate].
  destruct (pair_loop _ _ _ _ _ _ _ _ _) as [rest|] eqn:PL; [cbn [bind]|discriminate]. intros [= <-].
  destruct (IH (set_rec_ind e1 r2) j rest) as [->| ->]; [cbn; rewrite DT; exact N|exact PL|left; reflexivity|right; reflexivity].
Qed.

(** With a whole number of seconds as a float the pairs are those of the integer, or a ValueError is
    raised, as it always is if there are pairs with different OCB records. *)
Theorem C187_same_or_error :
  forall d omn omx oks emn emx eks d',
    same_age (b_dtime (d_eab d)) (b_dtime (d_ocb d)) -> 0 <= d_max_delta d <= 1099511627776 -> d_loaded d = true ->
    set_good_ind d omn omx oks emn emx eks = Ok d' ->
    (dual_pairs_t (d_ocb d) (d_eab d) (whole (d_max_delta d)) omn omx oks emn emx eks = Ok (combine (d_ocb_ind d') (d_eab_ind d')) \/
     dual_pairs_t (d_ocb d) (d_eab d) (whole (d_max_delta d)) omn omx oks emn emx eks = Err ValueError) /\
    (forall i j, In i (d_ocb_ind d') -> In j (d_ocb_ind d') -> i <> j ->
     dual_pairs_t (d_ocb d) (d_eab d) (whole (d_max_delta d)) omn omx oks emn emx eks = Err ValueError).
Proof.
  intros d omn omx oks emn emx eks d' N K L H.
  assert (A : exists ps, d_ocb_ind d' = map fst ps /\ d_eab_ind d' = map snd ps /\
    (dual_pairs_t (d_ocb d) (d_eab d) (whole (d_max_delta d)) omn omx oks emn emx eks = Ok ps \/ dual_pairs_t (d_ocb d) (d_eab d) (whole (d_max_delta d)) omn omx oks emn emx eks = Err ValueError)).
  { revert H. unfold set_good_ind, dual_pairs_t. rewrite L. cbn [negb]. destruct (retrieve_all_good_indices _ _ _ _) as [[good ocb1]|] eqn:RA; [cbn [bind]|discriminate].
    assert (DT : b_dtime ocb1 = b_dtime (d_ocb d)) by (revert RA; unfold retrieve_all_good_indices; destruct (retrieve_loop _ _ _ _ _ _); [cbn [bind]|discriminate]; intros [= _ <-]; reflexivity).
    destruct (pick _ good) as [odat|] eqn:PK; [cbn [bind]|discriminate]. destruct (pair_loop _ _ _ _ _ _ _ _ _) as [ps|] eqn:PL; [cbn [bind]|discriminate].
    destruct (pick _ (map fst ps)) as [dt|]; [cbn [bind]|discriminate]. intros H. exists ps.
    assert (E : d_ocb_ind d' = map fst ps /\ d_eab_ind d' = map snd ps).
    { revert H. unfold dual_set_rec_ind. cbn [Z.ltb Z.compare d_records d_ocb_ind d_eab_ind]. destruct (_ <=? _); [intros [= <-]; split; reflexivity|].
      destruct (getE _ _); [cbn [bind]|discriminate]. destruct (getE _ _); [cbn [bind]|discriminate]. intros [= <-]. split; reflexivity. }
    destruct E as [E1 E2]. split; [exact E1|]. split; [exact E2|]. apply pair_t_or; [exact K| |exact PL].
    intros t u T U. apply N; [exact T|]. rewrite <- DT. exact (pick_In _ _ _ _ PK U). }
  destruct A as (ps & E1 & E2 & A). rewrite E1, E2. replace (combine (map fst ps) (map snd ps)) with ps by (clear; induction ps as [|[x y] ps IH]; cbn; congruence). split; [exact A|].
  intros i j I J D. destruct A as [A|A]; [exfalso|exact A]. apply in_map_iff in I. apply in_map_iff in J. destruct I as (p & <- & P), J as (q & <- & Q).
  apply D. exact (C187_one_ocb _ _ _ _ _ _ _ _ _ _ A p q P Q).
Qed.

(** Two OCBs and two EABs, at the same two times: 60 gives both pairs, 60.0 an error. *)
Definition two (t u : Z) : boundary := mkB 2 (-1) [t; u] [Fin 2; Fin 2] (Fin 1) (Fin 4) [].
Theorem C187_int_float_refuted :
  exists d d', same_age (b_dtime (d_eab d)) (b_dtime (d_ocb d)) /\ d_loaded d = true /\ d_max_delta d = 60 /\
    set_good_ind d None None [] None None [] = Ok d' /\ combine (d_ocb_ind d') (d_eab_ind d') = [(0, 0); (1, 1)] /\
    dual_pairs_t (d_ocb d) (d_eab d) (whole 60) None None [] None None [] = Err ValueError.
Proof.
  exists (mkD (two 0 300000000) (two 0 300000000) true 60 0 [] [] [] None). eexists. split; [|repeat (split; [vm_compute; reflexivity|]); vm_compute; reflexivity].
  intros t d T D. cbn in T, D. destruct T as [<-|[<-|[]]], D as [<-|[<-|[]]]; vm_compute; discriminate.
Qed.

(** One OCB record near both EABs: the float gives the pairs of the integer. *)
Example C187_case :
  same_age [0; 30000000] [0; 300000000] /\
  dual_pairs_t (two 0 300000000) (two 0 30000000) (whole 60) None None [] None None [] = Ok [(0, 0); (0, 1)] /\
  (exists d', set_good_ind (mkD (two 0 300000000) (two 0 30000000) true 60 0 [] [] [] None) None None [] None None [] = Ok d' /\ combine (d_ocb_ind d') (d_eab_ind d') = [(0, 0); (0, 1)]).
Proof.
  split; [intros t d T D; cbn in T, D; destruct T as [<-|[<-|[]]], D as [<-|[<-|[]]]; vm_compute; discriminate|].
  split; [vm_compute; reflexivity|]. eexists. split; vm_compute; reflexivity.
Qed.

Print Assumptions C187_one_ocb.
Print Assumptions C187_same_or_error.
Print Assumptions C187_int_float_refuted.
