(** C169 (the period of boundaries loaded for a pysat instrument), C170 (the variables that
    must be present), C171 (the outputs). *)
From Coq Require Import String Ascii ZArith QArith List Bool Sorted Lia.
From Verif Require Import PyBase TimeModel FilesModel FilesProofs SmagModel CycleModel CycleSpec CycleProofs CoordModel LoadModel LoadSpec LoadProofs
  DriverModel DriverProofs PropertiesLoad PropertiesCycle PysatModel PysatSpec PysatProofs PysatProofs2 PysatProofs3 PropertiesPysat PropertiesPysat2 PloadModel PloadProofs.
Import ListNotations.
Open Scope list_scope.
Open Scope Z_scope.

(** ** C169 *)
Definition has_value {V} (out : list (option V)) : Prop := exists s v, nth_error out s = Some (Some v).
Definition no_value {V} (r : res (option (list (option V)))) : Prop := forall out, r = Ok (Some out) -> ~ has_value out.
(** Only the boundaries from one second more than the largest time difference before the first
    sample to as much after the last are read.  When the samples and the boundaries are in
    order of time this loses nothing: an output with any value comes from these exactly when
    it comes from the whole file. *)
Theorem C169_period_suffices_partial :
  (* missing: samples not in order of time, C169_unsorted_refuted *)
  forall F K V (conv : record F K -> Z -> V) num_of mn0 mx0 cols fmt inst noargs file (w : loaded F K) h rows max_sdiff mn mx ks,
    is_table cols file -> In "fom"%string cols -> load cols fmt None None inst GNone GNone noargs file = Ok (Some w) ->
    strictly_time_sorted (l_dtime w) -> time_sorted (map fst rows) -> rows <> [] -> 0 <= max_sdiff ->
    let whole := output_with conv num_of mn0 mx0 w (sign_of h) rows max_sdiff mn mx ks in
    let period := output_from_file conv num_of mn0 mx0 cols fmt inst noargs file (sign_of h) rows max_sdiff mn mx ks in
    (exists out, whole = Ok (Some out) /\ period = Ok (Some out)) \/ (no_value whole /\ no_value period).
Proof.
  intros F K V conv num_of mn0 mx0 cols fmt inst noargs file w h rows max_sdiff mn mx ks T FM LW SW SR NE M0. cbv zeta.
  assert (exists s e, load_window (map fst rows) max_sdiff = Ok (s, e)) as (s & e & WIN) by (destruct rows; [contradiction|cbn; eauto]).
  pose proof (window_loads cols fmt s e inst noargs file w T LW) as (d & LD).
  unfold output_from_file. rewrite WIN. cbn [bind]. rewrite LD. cbn [bind].
  destruct (loaded_part _ _ _ _ _ _ _ _ _ T LW LD) as (idx & P & IN).
  pose proof (C44_can_be_cycled _ _ _ _ _ _ _ _ _ _ _ _ num_of mn0 mx0 T FM LW) as [WW RW].
  pose proof (C44_can_be_cycled _ _ _ _ _ _ _ _ _ _ _ _ num_of mn0 mx0 T FM LD) as [WD RD].
  assert (WC : forall l : loaded F K, wf_crits (as_boundary num_of mn0 mx0 l) ks).
  { intros l c _. unfold getattr. destruct (String.eqb (fst c) "fom"); [discriminate|]. destruct (String.eqb (fst c) "dtime"); [discriminate|].
    cbn [as_boundary b_attrs]. rewrite (assoc_snd (fun x => AArr (map num_of x))). destruct (assoc (fst c) (l_attrs l)); discriminate. }
  assert (SD : strictly_time_sorted (l_dtime d)).
  { intros i j IJ J. unfold zlen in J. assert (LI : length idx = length (l_dtime d)) by (eapply F2_length; exact (pt_times _ _ _ P)).
    destruct (nth_error idx (Z.to_nat i)) as [a|] eqn:A; [|apply nth_error_None in A; lia]. destruct (nth_error idx (Z.to_nat j)) as [b|] eqn:B; [|apply nth_error_None in B; lia].
    pose proof (part_time _ _ _ P _ _ A) as X. pose proof (part_time _ _ _ P _ _ B) as Y. rewrite Z2Nat.id in X, Y by lia. rewrite X, Y.
    assert (BL : (b < length (l_dtime w))%nat) by (destruct (F2_nth _ _ _ (pt_times _ _ _ P) _ _ B) as (t & _ & Q); apply nth_error_Some; congruence).
    apply SW; [|unfold zlen; lia]. pose proof (sorted_nth _ (pt_sorted _ _ _ P) _ _ _ _ A B ltac:(lia)). lia. }
  assert (COV : forall i k, (i < length (l_dtime w))%nat -> (k < length rows)%nat -> Z.abs (tm (l_dtime w) (Z.of_nat i) - tm (map fst rows) (Z.of_nat k)) <= max_sdiff * 1000000 -> In i idx).
  { intros i k L1 L2 N. apply IN. destruct (nth_error (l_dtime w) i) as [t|] eqn:E; [|apply nth_error_None in E; lia]. exists t. split; [reflexivity|].
    rewrite (nth_tm _ (Z.of_nat i) t) in N by (rewrite Nat2Z.id; exact E). apply (load_window_covers _ _ _ _ SR WIN k t); [rewrite map_length; exact L2|exact N]. }
  set (acc := fun lat vs => on h lat /\ some_value vs).
  assert (AD : forall lat vs, acc lat vs \/ ~ acc lat vs).
  { intros lat vs. unfold acc. rewrite <- (pandas_keep_spec h lat vs). destruct (pandas_keep (sign_of h) (lat, vs)); [left; reflexivity|right; discriminate]. }
  assert (RDl : l_rec_ind d = -1) by exact RD. assert (RWl : l_rec_ind w = -1) by exact RW.
  assert (OUT : forall l : loaded F K, wf_boundary (as_boundary num_of mn0 mx0 l) -> l_rec_ind l = -1 -> strictly_time_sorted (l_dtime l) ->
    let b := as_boundary num_of mn0 mx0 l in let r := output_with conv num_of mn0 mx0 l (sign_of h) rows max_sdiff mn mx ks in
    let far := forall s t lat vs r, nth_error rows s = Some (t, (lat, vs)) -> acc lat vs -> usable_record b mn mx ks r -> ~ near b rows max_sdiff r s in
    (exists out, r = Ok (Some out) /\ converted (fun r s => conv (record_at l r) s) b rows max_sdiff mn mx ks acc out) \/ (no_value r /\ far)).
  { intros l WL RL SL b r far. destruct (Z.eq_dec (l_records l) 0) as [Z0|NZ].
    - right. split.
      + intros out E. exfalso. unfold r, output_with, pandas_output, convert in E. cbn [as_boundary b_records] in E. rewrite Z0 in E. discriminate.
      + intros k t lat vs q _ _ [X _]. exfalso. unfold b in X. cbn [as_boundary b_records] in X. lia.
    - destruct WL as [W0 WL]. assert (RP : 0 < b_records b) by (unfold b; cbn [as_boundary b_records] in *; lia).
      assert (SI : sorted_input b rows max_sdiff ks) by (split; [exact (conj W0 WL)|]; split; [apply WC|]; split; [exact SL|]; split; [exact SR|]; split; [exact M0|]; unfold b; cbn [as_boundary b_rec_ind b_records] in *; lia).
      destruct (output_spec (fun r s => conv (record_at l r) s) b rows max_sdiff mn mx ks (pandas_keep (sign_of h)) acc (fun lat vs => pandas_keep_spec h lat vs) SI RP) as [O|[E FAR]]; [left; exact O|].
      right. split; [|exact FAR]. intros out X. exfalso. cbv zeta in E. unfold r, output_with, pandas_output in X. unfold b in E. rewrite E in X. discriminate X. }
  pose proof (near_any d w idx P num_of mn0 mx0 mn mx ks RDl RWl rows max_sdiff COV acc) as FAR.
  assert (ALL : forall l out, wf_boundary (as_boundary num_of mn0 mx0 l) -> l_rec_ind l = -1 -> (forall s t lat vs r, nth_error rows s = Some (t, (lat, vs)) -> acc lat vs -> usable_record (as_boundary num_of mn0 mx0 l) mn mx ks r -> ~ near (as_boundary num_of mn0 mx0 l) rows max_sdiff r s) ->
    converted (fun r s => conv (record_at l r) s) (as_boundary num_of mn0 mx0 l) rows max_sdiff mn mx ks acc out -> ~ has_value out).
  { intros l out _ _ FR C (k & v & E). pose proof (no_value_far _ _ _ _ _ _ _ _ AD out FR C _ _ E). discriminate. }
  destruct (OUT w WW RWl SW) as [(ow & EW & CW)|[NW FW]], (OUT d WD RDl SD) as [(od & ED & CD)|[ND FD]].
  - left. exists ow. split; [exact EW|]. rewrite ED. f_equal. f_equal. apply (converted_unique (fun r s => conv (record_at d r) s) _ _ _ _ _ _ _ WD (WC d) RD AD _ _ CD).
    apply (converted_part d w idx P num_of mn0 mx0 mn mx ks RDl RWl rows max_sdiff COV conv acc). exact CW.
  - right. split; [|exact ND]. intros out E. assert (out = ow) by congruence. subst out. apply (ALL w); try assumption. apply FAR. exact FD.
  - right. split; [exact NW|]. intros out E. assert (out = od) by congruence. subst out. apply (ALL d); try assumption. apply FAR. exact FW.
  - right. split; assumption.
Qed.
Corollary C169_same_values :
  forall F K V (conv : record F K -> Z -> V) num_of mn0 mx0 cols fmt inst noargs file (w : loaded F K) h rows max_sdiff mn mx ks out,
    is_table cols file -> In "fom"%string cols -> load cols fmt None None inst GNone GNone noargs file = Ok (Some w) ->
    strictly_time_sorted (l_dtime w) -> time_sorted (map fst rows) -> rows <> [] -> 0 <= max_sdiff -> has_value out ->
    output_from_file conv num_of mn0 mx0 cols fmt inst noargs file (sign_of h) rows max_sdiff mn mx ks = Ok (Some out) <->
    output_with conv num_of mn0 mx0 w (sign_of h) rows max_sdiff mn mx ks = Ok (Some out).
Proof.
  intros F K V conv num_of mn0 mx0 cols fmt inst noargs file w h rows max_sdiff mn mx ks out T FM LW SW SR NE M0 HV.
  destruct (C169_period_suffices_partial F K V conv num_of mn0 mx0 cols fmt inst noargs file w h rows max_sdiff mn mx ks T FM LW SW SR NE M0) as [(o & A & B)|[A B]].
  - rewrite A, B. reflexivity.
  - split; intros E; exfalso; [exact (B _ E HV)|exact (A _ E HV)].
Qed.
(** The boundaries loaded are exactly those of the period. *)
Theorem C169_period_loaded :
  forall F K cols fmt inst noargs file (w d : loaded F K) t0 times max_sdiff s e,
    is_table cols file -> load cols fmt None None inst GNone GNone noargs file = Ok (Some w) ->
    load_window (t0 :: times) max_sdiff = Ok (s, e) -> load cols fmt (Some s) (Some e) inst GNone GNone noargs file = Ok (Some d) ->
    exists idx, StronglySorted lt idx /\ Forall2 (fun i t => nth_error (l_dtime w) i = Some t) idx (l_dtime d) /\
      forall i t, nth_error (l_dtime w) i = Some t ->
        (In i idx <-> t0 - (max_sdiff + 1) * 1000000 <= t <= last (t0 :: times) t0 + (max_sdiff + 1) * 1000000).
Proof.
  intros F K cols fmt inst noargs file w d t0 times max_sdiff s e T LW WIN LD. destruct (loaded_part _ _ _ _ _ _ _ _ _ T LW LD) as (idx & P & IN).
  exists idx. split; [exact (pt_sorted _ _ _ P)|]. split; [exact (pt_times _ _ _ P)|]. intros i t E. rewrite IN. cbn [load_window] in WIN. injection WIN as <- <-. split.
  - intros (t' & E' & B). assert (t' = t) by congruence. subst t'. exact B.
  - intros B. exists t. split; [exact E|exact B].
Qed.
(** Samples at 0 s, 230 s and 250 s with boundaries every two minutes. *)
Definition pl_num (v : val) : num := match v with VCell (CFlt q) => q | _ => NaN end.
Definition pl_time (r : record unit unit) (_ : Z) : option Z := fst (fst (fst r)).
Definition pl_rows (ts : list Z) : list (Z * (num * list num)) := map (fun t => (amp_t0 + t * 1000000, (Fin 70, [Fin 1])))%Z ts.
Definition pl_whole ts := match load (F := unit) amp_cols amp_fmt None None (Some "ampere"%string) GNone GNone tt amp_rows with
  | Ok (Some w) => output_with pl_time pl_num (Fin 0) (Fin 1) w (sign_of North) (pl_rows ts) 60 None None [] | _ => Err ValueError end.
Definition pl_period ts := output_from_file (F := unit) pl_time pl_num (Fin 0) (Fin 1) amp_cols amp_fmt (Some "ampere"%string) tt amp_rows (sign_of North) (pl_rows ts) 60 None None [].
Example C169_case :
  pl_period [0; 230; 250] = Ok (Some (map (fun t => Some (Some (amp_t0 + t * 1000000))%Z) [0; 240; 240])) /\ pl_whole [0; 230; 250] = pl_period [0; 230; 250] /\
  (* a sample between the boundaries has no value, and the first boundary is not read *)
  pl_period [180; 181; 230] = Ok (Some [Some (Some (amp_t0 + 120000000))%Z; Some (Some (amp_t0 + 240000000)%Z); Some (Some (amp_t0 + 240000000)%Z)]) /\
  pl_whole [180; 181; 230] = pl_period [180; 181; 230].
Proof. repeat split; vm_compute; reflexivity. Qed.
(** Samples not in order: the period from the first to the last is empty, and the value of the
    whole file is lost. *)
Theorem C169_unsorted_refuted :
  ~ (forall F K V (conv : record F K -> Z -> V) num_of mn0 mx0 cols fmt inst noargs file (w : loaded F K) h rows max_sdiff mn mx ks out,
      is_table cols file -> In "fom"%string cols -> load cols fmt None None inst GNone GNone noargs file = Ok (Some w) ->
      strictly_time_sorted (l_dtime w) -> rows <> [] -> 0 <= max_sdiff -> has_value out ->
      output_with conv num_of mn0 mx0 w (sign_of h) rows max_sdiff mn mx ks = Ok (Some out) ->
      output_from_file conv num_of mn0 mx0 cols fmt inst noargs file (sign_of h) rows max_sdiff mn mx ks = Ok (Some out)).
Proof.
  intros H. destruct (load (F := unit) amp_cols amp_fmt None None (Some "ampere"%string) GNone GNone tt amp_rows) as [[w|]|] eqn:LW; [|vm_compute in LW; discriminate|vm_compute in LW; discriminate].
  assert (DW : l_dtime w = amp_times) by (vm_compute in LW; injection LW as <-; reflexivity).
  assert (OW : pl_whole [240; 0] = Ok (Some [Some (Some (amp_t0 + 240000000)%Z); None])) by (vm_compute; reflexivity).
  unfold pl_whole in OW. rewrite LW in OW.
  specialize (H unit unit (option Z) pl_time pl_num (Fin 0) (Fin 1) amp_cols amp_fmt (Some "ampere"%string) tt amp_rows w North (pl_rows [240; 0]) 60 None None [] [Some (Some (amp_t0 + 240000000)%Z); None] amp_table).
  specialize (H ltac:(cbn; auto 10) LW). specialize (fun a b c e => H a b c e OW). 
  assert (X : pl_period [240; 0] = Ok None) by (vm_compute; reflexivity). unfold pl_period in X. rewrite X in H.
  discriminate H; [|discriminate|lia|exists 0%nat; eexists; reflexivity].
  rewrite DW. intros i j IJ J. unfold zlen, amp_times in J. cbn [length] in J.
  assert ((i = 0 /\ j = 1) \/ (i = 0 /\ j = 2) \/ (i = 1 /\ j = 2)) as [[-> ->]|[[-> ->]|[-> ->]]] by lia; vm_compute; reflexivity.
Qed.

(** ** C170: the variables *)
(** The names are accepted when the coordinates are variables and every scaled name is a
    variable or a vector; anything else is a ValueError. *)
Theorem C170_names_checked vars mlat mlt evar curl vecs :
  (check_names true vars mlat mlt evar curl vecs = Ok tt <->
   In mlat vars /\ In mlt vars /\ forall n, In n evar \/ In n curl -> In n vars \/ exists own, In (n, own) vecs) /\
  (forall b, check_names b vars mlat mlt evar curl vecs <> Ok tt -> check_names b vars mlat mlt evar curl vecs = Err ValueError) /\
  check_names false vars mlat mlt evar curl vecs = Err ValueError.
Proof.
  assert (KN : forall n, known vars vecs n = true <-> In n vars \/ exists own, In (n, own) vecs).
  { intros n. unfold known. rewrite orb_true_iff, !member_spec. split; (intros [A|A]; [left; exact A|right]).
    - apply in_map_iff in A. destruct A as ([m own] & E & I). cbn in E. subst m. eauto.
    - destruct A as [own I]. apply (in_map fst) in I. exact I. }
  assert (FK : forall l, forallb (known vars vecs) l = true <-> forall n, In n l -> In n vars \/ exists own, In (n, own) vecs).
  { intros l. rewrite forallb_forall. split; intros H n I; apply KN, H, I. }
  split; [|split].
  - unfold check_names. cbn [negb]. destruct (member mlat vars) eqn:A; cbn [negb].
    2: { split; [discriminate|]. intros [X _]. apply member_spec in X. congruence. }
    destruct (member mlt vars) eqn:B; cbn [negb]. 2: { split; [discriminate|]. intros [_ [X _]]. apply member_spec in X. congruence. }
    apply member_spec in A. apply member_spec in B.
    destruct (forallb (known vars vecs) evar) eqn:C; cbn [negb]. 2: { split; [discriminate|]. intros (_ & _ & H). enough (forallb (known vars vecs) evar = true) by congruence. apply FK. auto. }
    destruct (forallb (known vars vecs) curl) eqn:D; cbn [negb]. 2: { split; [discriminate|]. intros (_ & _ & H). enough (forallb (known vars vecs) curl = true) by congruence. apply FK. auto. }
    split; [intros _|reflexivity]. split; [exact A|]. split; [exact B|]. intros n [I|I]; [exact (proj1 (FK evar) C n I)|exact (proj1 (FK curl) D n I)].
  - intros b H. unfold check_names in *. destruct (negb b); [reflexivity|]. repeat match goal with |- context [if ?c then _ else _] => destruct c; [reflexivity|] end. contradiction H. reflexivity.
  - reflexivity.
Qed.
(** What is tested for finite values: the coordinates, the scaled variables and the components
    of the vectors, each of them a variable of the instrument, once. *)
Theorem C170_variables_needed b vars mlat mlt evar curl vecs scal names outs attrs :
  check_names true vars mlat mlt evar curl vecs = Ok tt ->
  collect_names b vars mlat mlt evar curl vecs scal = Ok (names, outs, attrs) ->
  (forall x, In x names <-> x = mlat \/ x = mlt \/ (In x vars /\ (In x evar \/ In x curl)) \/
     exists n own k, In (n, own) vecs /\ In (k, x) own /\ (k = s2l "vect_n" \/ k = s2l "vect_e" \/ k = s2l "vect_z")) /\
  (forall x, In x names -> In x vars) /\ (mlat <> mlt -> NoDup names).
Proof.
  intros CK H. apply C170_names_checked in CK. destruct CK as (ML & MT & _). unfold collect_names in H.
  destruct (all_vectors b vars vecs (add_vars vars curl (add_vars vars evar [mlat; mlt])) [out_of b mlat; out_of b mlt; out_of b (s2l "r_corr")] []) as [[[l o] a]|] eqn:V; [|discriminate].
  cbn [bind] in H. destruct (roles evar curl scal) as [[[v e] c]|]; [|discriminate]. cbn [bind] in H. injection H as <- _ _.
  destruct (all_vectors_ok _ _ _ _ _ _ _ _ _ V) as (A & B & C & _).
  assert (PV : forall x, part_of_vector vecs x <-> exists n own k, In (n, own) vecs /\ In (k, x) own /\ (k = s2l "vect_n" \/ k = s2l "vect_e" \/ k = s2l "vect_z")).
  { intros x. unfold part_of_vector, components. cbn [map In]. split; intros (n & own & k & X & Y & Z); exists n, own, k; (split; [exact X|]); (split; [exact Y|]); intuition congruence. }
  split; [|split].
  - intros x. rewrite A, !add_vars_in, PV. cbn [In]. intuition congruence.
  - intros x I. apply A in I. rewrite !add_vars_in in I. cbn [In] in I. destruct I as [[[[<-|[<-|[]]]|[_ X]]|[_ X]]|X]; try assumption. exact (C x X).
  - intros NE. apply B, add_vars_nodup, add_vars_nodup. repeat constructor; cbn; intuition congruence.
Qed.
(** The rest of the names fail, with a ValueError, exactly when a component is unknown or a
    vector has no scaling. *)
Theorem C170_vectors_checked b vars mlat mlt evar curl vecs scal : distinct_names evar curl scal ->
  let r := collect_names b vars mlat mlt evar curl vecs scal in
  ((exists out, r = Ok out) \/ r = Err ValueError) /\
  (r = Err ValueError <-> (exists n own k x, In (n, own) vecs /\ In (k, x) own /\ (k = s2l "vect_n" \/ k = s2l "vect_e" \/ k = s2l "vect_z") /\ ~ In x vars) \/
                          (exists n, In (n, None) scal /\ ~ In n evar /\ ~ In n curl)).
Proof.
  intros DN r. pose proof (C115_scaling_missing evar curl scal DN) as MS. unfold r, collect_names.
  set (l0 := add_vars vars curl (add_vars vars evar [mlat; mlt])). set (o0 := [out_of b mlat; out_of b mlt; out_of b (s2l "r_corr")]).
  destruct (all_vectors b vars vecs l0 o0 []) as [[[l o] a]|e] eqn:V; cbn [bind].
  - destruct (all_vectors_ok _ _ _ _ _ _ _ _ _ V) as (_ & _ & C & _).
    assert (NU : ~ exists n own k x, In (n, own) vecs /\ In (k, x) own /\ (k = s2l "vect_n" \/ k = s2l "vect_e" \/ k = s2l "vect_z") /\ ~ In x vars).
    { intros (n & own & k & x & X & Y & Z & N). apply N, C. exists n, own, k. split; [exact X|]. split; [exact Y|]. unfold components. cbn [map In]. intuition congruence. }
    destruct (roles evar curl scal) as [[[v ev] cu]|e] eqn:R; cbn [bind].
    + split; [left; eauto|]. split; [discriminate|]. intros [X|X]; [contradiction|]. apply MS in X. discriminate.
    + assert (EV : e = ValueError).
      { destruct DN as (N1 & N2 & N3). rewrite (roles_spec scal evar curl N3 N1 N2) in R. destruct (forallb (described evar curl) scal); congruence. }
      subst e. split; [right; reflexivity|]. split; [|reflexivity]. intros _. right. apply MS. reflexivity.
  - pose proof (all_vectors_value _ _ _ _ _ _ _ V). subst e. split; [right; reflexivity|]. split; [|reflexivity]. intros _. left.
    destruct (existsb (fun v => existsb (fun p => member (fst p) components && negb (member (snd p) vars)) (snd v)) vecs) eqn:EX.
    + apply existsb_exists in EX. destruct EX as ([n own] & I & EX). apply existsb_exists in EX. destruct EX as ([k x] & J & E). cbn [fst snd] in *. apply andb_true_iff in E. destruct E as [E1 E2]. apply member_spec in E1.
      exists n, own, k, x. split; [exact I|]. split; [exact J|]. split; [unfold components in E1; cbn [map In] in E1; intuition congruence|]. intros Q. apply member_spec in Q. rewrite Q in E2. discriminate.
    + exfalso. destruct (all_vectors_err b vars vecs l0 o0 []) as [r' ER]; [|congruence]. intros x (n & own & k & X & Y & Z).
      destruct (member x vars) eqn:M; [apply member_spec; exact M|]. exfalso. apply Bool.not_true_iff_false in EX. apply EX. apply existsb_exists. exists (n, own). split; [exact X|]. apply existsb_exists. exists (k, x). split; [exact Y|].
      cbn [fst snd]. rewrite M, (proj2 (member_spec k components) Z). reflexivity.
Qed.
Definition pl_vars : list str := map s2l ["lat"; "mlt"; "pot"; "vn"; "ve"; "vort"]%string.
Definition pl_vecs : list (str * list (str * str)) :=
  [(s2l "vel", [(s2l "vect_n", s2l "vn"); (s2l "vect_name", s2l "velocity"); (s2l "vect_e", s2l "ve")]); (s2l "db", [(s2l "vect_z", s2l "pot"); (s2l "scale_func", s2l "f")])].
Definition pl_scal : list (str * option scaling) := [(s2l "vel", None); (s2l "db", Some (SOther 0))].
Example C170_case :
  check_names true pl_vars (s2l "lat") (s2l "mlt") [s2l "pot"; s2l "vel"] [s2l "vort"] pl_vecs = Ok tt /\
  collect_names (s2l "ocb") pl_vars (s2l "lat") (s2l "mlt") [s2l "pot"; s2l "vel"] [s2l "vort"] pl_vecs pl_scal =
  Ok (map s2l ["lat"; "mlt"; "pot"; "vort"; "vn"; "ve"]%string, map s2l ["lat_ocb"; "mlt_ocb"; "r_corr_ocb"; "vel_ocb"; "db_ocb"; "pot_ocb"; "vort_ocb"]%string,
      [(s2l "vel_ocb", [s2l "vn"; s2l "ve"]); (s2l "db_ocb", [s2l "pot"])]) /\
  check_names true pl_vars (s2l "lat") (s2l "mlt") [s2l "vel"] [] [] = Err ValueError /\
  collect_names (s2l "ocb") pl_vars (s2l "lat") (s2l "mlt") [] [] pl_vecs pl_scal = Err ValueError /\
  collect_names (s2l "ocb") (map s2l ["lat"; "mlt"]%string) (s2l "lat") (s2l "mlt") [s2l "vel"] [] pl_vecs pl_scal = Err ValueError.
Proof. repeat split; vm_compute; reflexivity. Qed.

(** ** C171: the outputs *)
(** One output for each coordinate, the radius correction, every scaled variable and every
    vector, named after it and the boundary. *)
Theorem C171_outputs_complete b vars mlat mlt evar curl vecs scal names outs attrs : distinct_names evar curl scal -> map fst scal = map fst vecs ->
  collect_names b vars mlat mlt evar curl vecs scal = Ok (names, outs, attrs) ->
  (forall o, In o outs <-> exists n, o = n ++ "_"%char :: b /\ (In n [mlat; mlt; s2l "r_corr"] \/ In n evar \/ In n curl \/ In n (map fst vecs))) /\
  (forall o c, In (o, c) attrs <-> exists n own, o = n ++ "_"%char :: b /\ In (n, own) vecs /\ c = map snd (filter (fun p => member (fst p) components) own) /\ c <> []).
Proof.
  intros (N1 & N2 & N3) SV H. unfold collect_names in H.
  destruct (all_vectors b vars vecs (add_vars vars curl (add_vars vars evar [mlat; mlt])) [out_of b mlat; out_of b mlt; out_of b (s2l "r_corr")] []) as [[[l o0] a]|] eqn:V; [|discriminate].
  cbn [bind] in H. rewrite (roles_spec scal evar curl N3 N1 N2) in H. destruct (forallb (described evar curl) scal); [|discriminate]. cbn [bind] in H.
  assert (EO : outs = o0 ++ map (out_of b) (left_evar (map fst scal) evar) ++ map (out_of b) (left_curl (map fst scal) evar curl)) by congruence.
  assert (EA : attrs = a) by congruence. clear H. subst attrs.
  destruct (all_vectors_ok _ _ _ _ _ _ _ _ _ V) as (_ & _ & _ & D & _). split.
  - intros o. rewrite EO, !in_app_iff, D. cbn [In]. split.
    + intros [[[<-|[<-|[<-|[]]]]|X]|[X|X]].
      * exists mlat. split; [reflexivity|]. tauto.
      * exists mlt. split; [reflexivity|]. tauto.
      * exists (s2l "r_corr"). split; [reflexivity|]. tauto.
      * apply in_map_iff in X. destruct X as (v & <- & I). exists (fst v). split; [reflexivity|]. right. right. right. apply in_map. exact I.
      * apply in_map_iff in X. destruct X as (n & <- & I). exists n. split; [reflexivity|]. unfold left_evar in I. apply filter_In in I. tauto.
      * apply in_map_iff in X. destruct X as (n & <- & I). exists n. split; [reflexivity|]. unfold left_curl in I. apply filter_In in I. tauto.
    + intros (n & -> & X). fold (out_of b n).
      assert (VV : In n (map fst vecs) -> In (out_of b n) (map (fun v => out_of b (fst v)) vecs)).
      { intros I. apply in_map_iff in I. destruct I as (v & <- & I). apply (in_map (fun v => out_of b (fst v))). exact I. }
      destruct X as [X|[X|[X|X]]].
      * left. left. destruct X as [<-|[<-|[<-|[]]]]; tauto.
      * destruct (member n (map fst scal)) eqn:M; [left; right; apply VV; rewrite <- SV; apply member_spec; exact M|]. right. left. apply in_map. apply filter_In. split; [exact X|]. rewrite M. reflexivity.
      * destruct (member n (map fst scal)) eqn:M; [left; right; apply VV; rewrite <- SV; apply member_spec; exact M|]. right. right. apply in_map. apply filter_In. split; [exact X|]. rewrite M. reflexivity.
      * left. right. apply VV. exact X.
  - intros o c. rewrite (all_vectors_attrs _ _ _ _ _ _ _ _ _ V). unfold out_of. split; [intros [[]|(n & own & I & E & X)]; exists n, own; auto|]. intros (n & own & E & I & X). right. exists n, own. auto.
Qed.
(** Each its own, when no name is used twice. *)
Theorem C171_outputs_distinct_partial :
  (* missing: names used twice, C171_collision_refuted *)
  forall b vars mlat mlt evar curl vecs scal names outs attrs, distinct_names evar curl scal -> map fst scal = map fst vecs ->
  NoDup (mlat :: mlt :: s2l "r_corr" :: evar ++ curl) -> (forall n, In n [mlat; mlt; s2l "r_corr"] -> ~ In n (map fst vecs)) ->
  collect_names b vars mlat mlt evar curl vecs scal = Ok (names, outs, attrs) -> NoDup outs.
Proof.
  intros b vars mlat mlt evar curl vecs scal names outs attrs (N1 & N2 & N3) SV ND NV H. unfold collect_names in H.
  destruct (all_vectors b vars vecs (add_vars vars curl (add_vars vars evar [mlat; mlt])) [out_of b mlat; out_of b mlt; out_of b (s2l "r_corr")] []) as [[[l o0] a]|] eqn:V; [|discriminate].
  cbn [bind] in H. rewrite (roles_spec scal evar curl N3 N1 N2) in H. destruct (forallb (described evar curl) scal); [|discriminate]. cbn [bind] in H.
  assert (EO : outs = o0 ++ map (out_of b) (left_evar (map fst scal) evar) ++ map (out_of b) (left_curl (map fst scal) evar curl)) by congruence. clear H. subst outs.
  destruct (all_vectors_ok _ _ _ _ _ _ _ _ _ V) as (_ & _ & _ & D & E).
  assert (INJ : forall l, NoDup l -> NoDup (map (out_of b) l)).
  { intros k Hk. apply FinFun.Injective_map_NoDup; [|exact Hk]. intros x y. apply out_of_inj. }
  assert (APP : forall (x y : list str), NoDup x -> NoDup y -> (forall z, In z x -> ~ In z y) -> NoDup (x ++ y)).
  { intros x y Hx Hy Z. induction Hx as [|z x I Hx IH]; [exact Hy|]. cbn [app]. constructor; [rewrite in_app_iff; intros [Q|Q]; [contradiction|exact (Z z (or_introl eq_refl) Q)]|]. apply IH. intros w Iw. apply Z. right. exact Iw. }
  assert (DIS : forall x, In x evar -> ~ In x curl).
  { intros x I J. apply NoDup_cons_iff in ND. destruct ND as [_ ND]. apply NoDup_cons_iff in ND. destruct ND as [_ ND]. apply NoDup_cons_iff in ND. destruct ND as [_ ND].
    clear -ND I J. induction evar as [|y evar IH]; [destruct I|]. cbn [app] in ND. apply NoDup_cons_iff in ND. destruct ND as [A B]. destruct I as [->|I]; [apply A, in_or_app; right; exact J|exact (IH B I)]. }
  assert (FIX : forall n, In n [mlat; mlt; s2l "r_corr"] -> ~ In n (evar ++ curl)).
  { intros n I J. apply NoDup_cons_iff in ND. destruct ND as [X1 ND]. apply NoDup_cons_iff in ND. destruct ND as [X2 ND]. apply NoDup_cons_iff in ND. destruct ND as [X3 ND].
    destruct I as [<-|[<-|[<-|[]]]]; [apply X1; right; right; exact J|apply X2; right; exact J|exact (X3 J)]. }
  assert (FX : forall l n, (forall m, In m l -> In m (evar ++ curl) /\ ~ In m (map fst vecs)) -> In (out_of b n) o0 -> ~ In n l).
  { intros k n Hk I J. destruct (Hk n J) as [I1 I2]. apply D in I. destruct I as [I|I].
    - cbn [In] in I. apply (FIX n); [|exact I1]. cbn [In]. destruct I as [I|[I|[I|[]]]]; apply out_of_inj in I; auto.
    - apply in_map_iff in I. destruct I as (v & Q & I). apply out_of_inj in Q. subst n. apply I2. apply in_map. exact I. }
  apply APP; [|apply APP|].
  - apply E. change (NoDup (map (out_of b) [mlat; mlt; s2l "r_corr"])). apply INJ. apply NoDup_cons_iff in ND. destruct ND as [X1 ND]. apply NoDup_cons_iff in ND. destruct ND as [X2 _]. cbn [In] in X1, X2. repeat constructor; cbn [In]; intuition.
  - apply INJ. apply NoDup_filter. exact N1.
  - apply INJ. apply NoDup_filter. exact N2.
  - intros z I J. apply in_map_iff in I. destruct I as (n & <- & I). apply in_map_iff in J. destruct J as (m & Q & J). apply out_of_inj in Q. subst m. apply filter_In in I. apply filter_In in J. exact (DIS n (proj1 I) (proj1 J)).
  - intros z I J. rewrite in_app_iff in J. destruct J as [J|J]; apply in_map_iff in J; destruct J as (n & <- & J); revert J; apply FX; [|exact I| |exact I].
    + intros m Q. apply filter_In in Q. destruct Q as [Q1 Q2]. split; [apply in_or_app; left; exact Q1|]. intros Q. rewrite <- SV in Q. apply member_spec in Q. rewrite Q in Q2. discriminate.
    + intros m Q. apply filter_In in Q. destruct Q as [Q1 Q2]. split; [apply in_or_app; right; exact Q1|]. intros Q. rewrite <- SV in Q. apply member_spec in Q. rewrite Q in Q2. cbn [andb] in Q2. rewrite negb_involutive in Q2. apply member_spec in Q2. exact (DIS m Q2 Q1).
Qed.
(** A variable scaled both ways, the latitude itself scaled, and a variable named r_corr: two
    outputs have one name. *)
Theorem C171_collision_refuted :
  ~ (forall b vars mlat mlt evar curl vecs scal names outs attrs, distinct_names evar curl scal -> map fst scal = map fst vecs -> mlat <> mlt ->
       check_names true vars mlat mlt evar curl vecs = Ok tt -> collect_names b vars mlat mlt evar curl vecs scal = Ok (names, outs, attrs) -> NoDup outs) /\
  (exists names, collect_names (s2l "ocb") pl_vars (s2l "lat") (s2l "mlt") [s2l "pot"] [s2l "pot"] [] [] = Ok (names, map s2l ["lat_ocb"; "mlt_ocb"; "r_corr_ocb"; "pot_ocb"; "pot_ocb"]%string, [])) /\
  (exists names, collect_names (s2l "ocb") pl_vars (s2l "lat") (s2l "mlt") [s2l "lat"] [] [] [] = Ok (names, map s2l ["lat_ocb"; "mlt_ocb"; "r_corr_ocb"; "lat_ocb"]%string, [])) /\
  (exists names, collect_names (s2l "ocb") (s2l "r_corr" :: pl_vars) (s2l "lat") (s2l "mlt") [] [s2l "r_corr"] [] [] = Ok (names, map s2l ["lat_ocb"; "mlt_ocb"; "r_corr_ocb"; "r_corr_ocb"]%string, [])).
Proof.
  split; [|split; [eexists; vm_compute; reflexivity|split; eexists; vm_compute; reflexivity]].
  intros H. specialize (H (s2l "ocb") pl_vars (s2l "lat") (s2l "mlt") [s2l "lat"] [] [] [] [s2l "lat"; s2l "mlt"] (map s2l ["lat_ocb"; "mlt_ocb"; "r_corr_ocb"; "lat_ocb"]%string) []).
  assert (N : NoDup (map s2l ["lat_ocb"; "mlt_ocb"; "r_corr_ocb"; "lat_ocb"]%string)).
  { apply H; [|reflexivity|discriminate|vm_compute; reflexivity|vm_compute; reflexivity]. split; [repeat constructor; intros []|]. split; constructor. }
  cbn [map] in N. apply NoDup_cons_iff in N. destruct N as [X _]. apply X. cbn [In]. auto.
Qed.
(** The names of C170_case do not collide. *)
Example C171_case : distinct_names [s2l "pot"; s2l "vel"] [s2l "vort"] pl_scal /\ map fst pl_scal = map fst pl_vecs /\
  NoDup (map s2l ["lat"; "mlt"; "r_corr"; "pot"; "vel"; "vort"]%string) /\ (forall n, In n (map s2l ["lat"; "mlt"; "r_corr"]%string) -> ~ In n (map fst pl_vecs)).
Proof.
  split; [|split; [reflexivity|split]].
  - repeat split; repeat constructor; cbn; intuition discriminate.
  - repeat constructor; cbn; intuition discriminate.
  - intros n I J. cbn in I, J. destruct I as [<-|[<-|[<-|[]]]]; intuition discriminate.
Qed.

Print Assumptions C169_period_suffices_partial.
Print Assumptions C169_same_values.
Print Assumptions C169_period_loaded.
Print Assumptions C169_unsorted_refuted.
Print Assumptions C170_names_checked.
Print Assumptions C170_variables_needed.
Print Assumptions C170_vectors_checked.
Print Assumptions C171_outputs_complete.
Print Assumptions C171_outputs_distinct_partial.
Print Assumptions C171_collision_refuted.
