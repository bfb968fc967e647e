(** C181: matching with the floating-point seconds of the time differences. *)
From Coq Require Import String ZArith QArith Reals List Bool Lia Lra.
From Flocq Require Import Core BinarySingleNaN.
From Verif Require Import PyBase CycleModel CycleSpec CycleProofs FloatModel FloatProofs FtimeModel FmatchModel FmatchProofs PropertiesCycle.
Import ListNotations.
Open Scope string_scope.
Open Scope list_scope.
Open Scope Z_scope.

(** All boundary times within 8589934591 seconds (2^33 - 1, 272 years) of all data times. *)
Definition same_age (dtime dat : list Z) : Prop :=
  forall t d, In t dtime -> In d dat -> Z.abs (t - d) <= 8589934591 * 1000000.

(** The seconds of two such differences are in the order of the exact differences, also by
    size, and in the order of exact differences against whole seconds. *)
Theorem C181_order :
  forall a b k, Z.abs a <= 8589934591 * 1000000 -> Z.abs b <= 8589934591 * 1000000 -> Z.abs k <= 2 ^ 53 ->
    ((B2R (total_seconds a) < B2R (total_seconds b))%R <-> a < b) /\
    ((Rabs (B2R (total_seconds a)) < Rabs (B2R (total_seconds b)))%R <-> Z.abs a < Z.abs b) /\
    ((B2R (total_seconds a) < IZR k)%R <-> a < k * 1000000).
Proof.
  intros a b k A B K. destruct (sec_R a A) as [_ FA]. destruct (sec_R b B) as [_ FB]. destruct (FtimeProofs.whole_R k K) as (W & WF & _). split; [|split].
  - rewrite <- (lt_true _ _ FA FB), sec_lt by assumption. apply Z.ltb_lt.
  - destruct (sec_abs_R a A) as [_ GA]. destruct (sec_abs_R b B) as [_ GB]. pose proof (lt_true _ _ GA GB) as L. rewrite sec_abs_lt in L by assumption.
    unfold f64_abs in L. rewrite !B2R_Babs in L. rewrite <- L. apply Z.ltb_lt.
  - rewrite <- W. rewrite <- (lt_true _ _ FA WF), below_tol by assumption. apply Z.ltb_lt.
Qed.

(** match_data_ocb with seconds does what it does with exact times ... *)
Theorem C181_exact_times_partial :
  forall b dat idat max_tol min_merit max_merit kwargs,
    same_age (b_dtime b) dat -> Z.abs max_tol <= 2 ^ 53 ->
    match_data_ocb_f b dat idat max_tol min_merit max_merit kwargs = match_data_ocb b dat idat max_tol min_merit max_merit kwargs.
Proof.
  intros b dat idat mt mn mx ks N T. unfold match_data_ocb_f, match_data_ocb. destruct (zlen dat <=? idat); [reflexivity|].
  destruct (b_records b <=? b_rec_ind b); [reflexivity|]. rewrite core_same; [reflexivity|exact N|exact T].
Qed.
(** ... also for any other way of cycling, such as that of a DualBoundary. *)
Theorem C181_any_cycle_partial :
  forall records dtime cycle dat max_tol rec idat,
    same_age dtime dat -> Z.abs max_tol <= 2 ^ 53 ->
    match_core_f records dtime cycle dat max_tol rec idat = match_core records dtime cycle dat (max_tol * 1000000) rec idat.
Proof. intros records dtime cycle dat mt rec idat N T. apply core_same; [exact N|exact T]. Qed.

(** So the record found is the closest in exact time. *)
Theorem C181_closest_partial :
  forall b dat idat max_tol min_merit max_merit kwargs i b',
    wf_boundary b -> wf_crits b kwargs ->
    -1 <= b_rec_ind b < b_records b -> 0 <= idat < zlen dat -> 0 <= max_tol <= 2 ^ 53 ->
    strictly_time_sorted (b_dtime b) -> time_sorted dat -> same_age (b_dtime b) dat ->
    match_data_ocb_f b dat idat max_tol min_merit max_merit kwargs = Ok (Some i, b') ->
    i < zlen dat -> b_rec_ind b' < b_records b ->
    closest (b_dtime b) dat
      (candidate (good_record b min_merit max_merit kwargs) (b_records b) (b_rec_ind b))
      i (b_rec_ind b').
Proof.
  intros b dat idat mt mn mx ks i b' W C R I T SS SD N H L1 L2. rewrite C181_exact_times_partial in H; [|exact N|lia].
  now apply (C07_match_is_closest b dat idat mt mn mx ks i b' W C R I (proj1 T) SS SD H).
Qed.

(** Beyond: two records one microsecond apart, 8589934592 seconds before the measurement, are
    equally far in seconds, and the first is taken though the second is closer. *)
Definition old_b (rec : Z) : boundary := mkB 2 rec [0; 1] [Fin 2; Fin 2] (Fin 1) (Fin 4) [].
Theorem C181_far_refuted :
  exists b dat max_tol b', wf_boundary b /\ -1 <= b_rec_ind b < b_records b /\ 0 <= max_tol <= 2 ^ 53 /\
    strictly_time_sorted (b_dtime b) /\ time_sorted dat /\
    match_data_ocb_f b dat 0 max_tol None None [] = Ok (Some 0, b') /\ b_rec_ind b' < b_records b /\
    ~ closest (b_dtime b) dat (candidate (good_record b None None []) (b_records b) (b_rec_ind b)) 0 (b_rec_ind b').
Proof.
  exists (old_b 0), [8589934592000002], 8589934593, (old_b 0). split; [|split; [cbn; lia|split; [lia|split; [|split; [|split; [vm_compute; reflexivity|split; [cbn; lia|]]]]]]].
  - split; [cbn; lia|]. split; [reflexivity|]. split; [reflexivity|]. intros k l. unfold getattr, old_b. cbn.
    destruct (String.eqb k "fom"); [intros [= <-]; reflexivity|]. destruct (String.eqb k "dtime"); [intros [= <-]; reflexivity|discriminate].
  - intros i j H1 H2. change (j < 2) in H2. assert (i = 0) as -> by lia. assert (j = 1) as -> by lia. reflexivity.
  - intros i j H1 H2. change (j < 1) in H2. assert (i = 0) as -> by lia. assert (j = 0) as -> by lia. cbn. lia.
  - intros [_ H]. destruct (H 1) as [H1 _].
    + split; [cbn; lia|]. right. split; [cbn; lia|]. split; [cbn; lia|]. split; [intros c []|]. exists (Fin 2). split; [reflexivity|]. split; vm_compute; reflexivity.
    + vm_compute in H1. now apply H1.
Qed.

(** The boundary of C07 fulfils the hypotheses, and the measurement 119 s is matched with the
    record at 120 s. *)
Example C181_case :
  same_age (b_dtime (ex_b (-1))) [119 * usec; 170 * usec] /\
  match_data_ocb_f (ex_b (-1)) [119 * usec; 170 * usec] 0 60 (Some NInf) (Some PInf) [("r", ("min", Fin 0))]
  = match_data_ocb (ex_b (-1)) [119 * usec; 170 * usec] 0 60 (Some NInf) (Some PInf) [("r", ("min", Fin 0))] /\
  match_data_ocb_f (ex_b (-1)) [119 * usec; 170 * usec] 1 60 (Some NInf) (Some PInf) [] = Ok (Some 1, ex_b 3).
Proof.
  split.
  { intros t d T D. cbn in T, D. unfold usec in *. destruct D as [<-|[<-|[]]]; destruct T as [<-|[<-|[<-|[<-|[<-|[]]]]]]; cbn; lia. }
  split; vm_compute; reflexivity.
Qed.

Print Assumptions C181_order.
Print Assumptions C181_exact_times_partial.
Print Assumptions C181_any_cycle_partial.
Print Assumptions C181_closest_partial.
Print Assumptions C181_far_refuted.
