(** C133-C135, C137 and C138: the attributes of VectorData through assignments. *)
From Coq Require Import Reals ZArith List Bool PeanoNat Lia Lra.
From Verif Require Import PyBase RangeModel CoordModel DualCoordModel VectorModel ScalingModel VdataModel VdataSpec VdataProofs.
Import ListNotations.
Open Scope R_scope.
(** Evaluates the model on literals. *)
Ltac ev := lazy -[sqrt pow Rplus Rmult IZR not].

Definition num (x : R) : av fl := Sc (Some x).
Definition nums (l : list R) : av fl := Ar (map Some l).
Definition nan : av fl := Sc None.
(** VectorData(dat, ocb, lat, lt, vect_n=n, vect_e=e, vect_z=z) with the other defaults. *)
Definition vector_data (dat ocb : av Z) (lat lt n e z : av fl) : res vdata :=
  construct dat ocb lat lt (num 350) n e z nan nan nan nan.

(** ** C133 *)
Theorem C133_values_kept_partial :
  (* missing: locations given for one index are not repeated when several are assigned
     (C133_location_refuted); for one data index the results need not have the shape of
     the boundary index (C133_results_refuted) *)
  forall dat ocb lat lt h n e z mag olat omlt rc v hist v',
    construct dat ocb lat lt h n e z mag olat omlt rc = Ok v -> Forall index_only hist -> run hist v = Ok v' ->
    d_ind v' = last_dat hist dat /\ o_ind v' = last_ocb hist ocb /\
    like (d_n v') (d_ind v') /\ like (d_e v') (d_ind v') /\ like (d_z v') (d_ind v') /\
    (forall i, place (d_ind v') i ->
       at_ (d_n v') i = at_ n i /\ at_ (d_e v') i = at_ e i /\ at_ (d_z v') i = at_ z i /\
       at_ (d_lat v') i = at_ lat i /\ at_ (d_lt v') i = at_ lt i /\ at_ (d_h v') i = at_ h i) /\
    no_results (d_out v') /\
    (~ scalar_value (d_ind v') -> results_like (d_out v') (d_ind v')).
Proof.
  intros dat ocb lat lt h n e z mag olat omlt rc v hist v' C F R.
  assert (RS : reachable v') by (exists dat, ocb, lat, lt, h, n, e, z, mag, olat, omlt, rc, v, hist; split; assumption).
  pose proof (reachable_shape v' RS) as HS. apply reachable_sound in RS.
  apply construct_ok in C.
  destruct C as (D & O & La & Lt_ & H & _ & _ & _ & Ln & Le & Lz & Lla & Llt & At & _ & Sn & Se & Sz & Cl & V & _).
  assert (S : settled v) by (unfold settled; rewrite D; auto).
  destruct (index_history hist v v' F R S) as (S' & K & D' & O' & Cl'). specialize (Cl' (or_intror Cl)).
  rewrite D in D'. rewrite O in O'.
  split; [exact D' |]. split; [exact O' |]. destruct S' as (S1 & S2 & S3). split; [exact S1 |]. split; [exact S2 |]. split; [exact S3 |].
  destruct K as (K1 & K2 & K3 & K4 & K5 & K6). rewrite D in K6.
  split.
  - intros i Pl. rewrite K1, K2, K3, La, Lt_, H.
    destruct K6 as [K6 | K6].
    + destruct dat as [zd |]; [| cbn in K6; tauto].
      destruct (K5 i Pl) as (-> & -> & ->). destruct (At 0%nat eq_refl) as (A1 & A2 & A3).
      assert (G : forall x y : av fl, like x (@Sc Z zd) -> (shape_of y = [] \/ shape_of y = shape_of (@Sc Z zd)) -> at_ x 0 = at_ y 0 -> at_ x i = at_ y i).
      { intros x y X Y E. destruct x, y; cbn in *; try tauto. destruct Y; discriminate. }
      assert (SS : forall x : av fl, sized (@Sc Z zd) x = x) by (intros []; reflexivity).
      rewrite !SS. split; [apply G; assumption |]. split; [apply G; assumption |]. split; [apply G; assumption |]. repeat split.
    + assert (P0 : place dat i) by (eapply place_like; [apply like_sym; exact K6 | exact Pl]).
      destruct (K5 i Pl) as (-> & -> & ->). destruct (At i P0) as (-> & -> & ->). rewrite !sized_at by exact P0. repeat split.
  - rewrite Cl'. split.
    + assert (exists x : av Z, d_vs v' = shape_of x) as [x ->]; [exact HS | apply cleared_none].
    + intros X. rewrite RS; [apply cleared_like |]. destruct (d_ind v'); cbn in *; tauto.
Qed.
Theorem C133_location_refuted :
  exists dat lat lt v d v', vector_data dat (Sc 0%Z) lat lt (num 1) (num 0) (num 0) = Ok v /\ do_assign (DatInd d) v = (v', None) /\
    ~ scalar_value (d_ind v') /\ ~ like (d_lat v') (d_ind v') /\ ~ like (d_lt v') (d_ind v').
Proof.
  exists (Sc 0%Z), (num 75), (num 1). eexists. exists (Ar [0; 1]%Z). eexists. split; [ev; reflexivity |]. split; [ev; reflexivity |].
  ev. tauto.
Qed.
Theorem C133_results_refuted :
  exists v v', vector_data (Sc 0%Z) (Ar [0; 1; 2]%Z) (num 75) (num 1) (num 1) (num 0) (num 0) = Ok v /\
    do_assign (OcbInd (Sc 5%Z)) v = (v', None) /\ ~ results_like (d_out v') (o_ind v') /\ r_n (d_out v') = Ar [None; None; None].
Proof.
  eexists _, _. split; [ev; reflexivity |]. split; [ev; reflexivity |]. split; [| ev; reflexivity]. ev. intros (X & _). exact X.
Qed.
Example C133_case :
  exists v v', vector_data (Sc 0%Z) (Ar [0; 1]%Z) (num 75) (num 1) (num 1) (num 0) (num 0) = Ok v /\
    run [OcbInd (Ar [3; 4; 5]%Z); DatInd (Sc 7%Z); DatInd (Ar [7; 8; 9]%Z); OcbInd (Ar [2; 2; 2]%Z)] v = Ok v' /\
    d_n v' = nums [1; 1; 1] /\ d_ind v' = Ar [7; 8; 9]%Z /\ r_n (d_out v') = Ar [None; None; None].
Proof. eexists _, _. split; [ev; reflexivity |]. split; [ev; reflexivity |]. split; [ev; reflexivity |]. split; ev; reflexivity. Qed.
Print Assumptions C133_values_kept_partial.
Print Assumptions C133_location_refuted.
Print Assumptions C133_results_refuted.

(** ** C134 *)
(** Everything but the two indices, the components and the boundary's coordinates. *)
Definition rest_kept (v v' : vdata) : Prop :=
  d_lat v' = d_lat v /\ d_lt v' = d_lt v /\ d_h v' = d_h v /\ d_mag v' = d_mag v /\ d_out v' = d_out v.
Definition coords_kept (v v' : vdata) : Prop := o_lat v' = o_lat v /\ o_mlt v' = o_mlt v /\ o_rc v' = o_rc v.
Definition coords_unset (v' : vdata) : Prop := undefined (o_lat v') /\ undefined (o_mlt v') /\ undefined (o_rc v').

Lemma set_dat_err x v v' e : set_dat_ind x v = (v', Some e) ->
  e = ValueError /\
  (v' = with_vs (with_dind v x) (d_vs v') \/
   exists v1, test_vector (with_dind v x) = (v1, None) /\ v' = v1).
Proof.
  unfold set_dat_ind. destruct (test_vector (with_dind v x)) as [v1 [e1 |]] eqn:T1; cbn [bindO fst snd].
  - intros H. inversion H; subst v1 e1. apply test_vector_err in T1. destruct T1 as (E & W). auto.
  - pose proof (test_vector_ok _ _ T1) as Q. cbn [with_dind d_ind d_n d_e d_z] in Q.
    destruct Q as (_ & _ & _ & Ln & Le & Lz & _).
    destruct (test_bound v1) as [v2 | |] eqn:T2; cbn [raising bindO fst snd]; intros H.
    + exfalso. apply test_bound_ok in T2. destruct T2 as (W & _). unfold set_mag in H. cbn [clear_data with_out d_n d_e d_z] in H.
      assert (N2 : d_n v2 = d_n v1 /\ d_e v2 = d_e v1 /\ d_z v2 = d_z v1) by (rewrite W; repeat split). destruct N2 as (E1 & E2 & E3). rewrite E1, E2, E3 in H.
      destruct (lengths_at (d_n v1) (d_e v1) (d_z v1) (shape_of x)) as (m & Hm & _); try (right; apply like_shape; assumption).
      rewrite Hm in H. cbn in H. discriminate H.
    + inversion H; subst. split; [ev; reflexivity |]. right. eauto.
    + inversion H; subst. split; [ev; reflexivity |]. right. eauto.
Qed.

Theorem C134_rejected_partial :
  (* missing: the object is not left as it was (C134_index_refuted, C134_coordinates_refuted,
     C134_components_refuted) *)
  (forall x v v' e, do_assign (DatInd x) v = (v', Some e) ->
     e = ValueError /\ d_ind v' = x /\ o_ind v' = o_ind v /\ rest_kept v v' /\ coords_kept v v' /\
     (forall i, place x i -> at_ (d_n v') i = at_ (d_n v) i /\ at_ (d_e v') i = at_ (d_e v) i /\ at_ (d_z v') i = at_ (d_z v) i)) /\
  (forall x v v' e, do_assign (OcbInd x) v = (v', Some e) ->
     e = ValueError /\ o_ind v' = x /\ d_ind v' = d_ind v /\ rest_kept v v' /\ (coords_kept v v' \/ coords_unset v') /\
     d_n v' = d_n v /\ d_e v' = d_e v /\ d_z v' = d_z v) /\
  (* the old data indices can be put back when there are several of them *)
  (forall x l v v' e, d_ind v = Ar l -> like (d_n v) (d_ind v) -> like (d_e v) (d_ind v) -> like (d_z v) (d_ind v) ->
     do_assign (DatInd x) v = (v', Some e) -> do_assign (DatInd (Ar l)) v' = do_assign (DatInd (Ar l)) v).
Proof.
  split; [| split].
  - intros x v v' e H. cbn [do_assign] in H. destruct (set_dat_err x v v' e H) as (-> & [W | (v1 & T & ->)]); (split; [reflexivity |]).
    + rewrite W. repeat split.
    + apply test_vector_ok in T. unfold same_given in T. cbn [with_dind d_ind o_ind d_lat d_lt d_h d_n d_e d_z d_mag o_lat o_mlt o_rc d_vs d_out] in T.
      unfold rest_kept, coords_kept. tauto.
  - intros x v v' e H. cbn [do_assign] in H.
    destruct (set_ocb_form x v) as [(v1 & T & E) | [(T & E) | [(T & SD & E) | [(T & SD & C & E) | (T & SD & SX & C & E)]]]];
      rewrite E in H; inversion H; subst v' e; clear H.
    + split; [reflexivity |]. split; [reflexivity |]. split; [reflexivity |]. split; [repeat split |]. split; [left; repeat split | repeat split].
    + split; [reflexivity |]. split; [reflexivity |]. split; [reflexivity |]. split; [repeat split |].
      split; [right | repeat split]. repeat split; intros i y A; eapply full_at; exact A.
  - intros x l v v' e D Ln Le Lz H. cbn [do_assign] in *.
    assert (W : v' = with_vs (with_dind v x) (d_vs v')).
    { destruct (set_dat_err x v v' e H) as (_ & [W | (v1 & T & ->)]); [exact W |].
      unfold test_vector in T. cbn [with_dind d_ind d_n d_e d_z d_lat d_lt] in T.
      set (L := distinct [] _) in T. destruct (_ || _); [discriminate T |]. destruct (_ && _); [| inversion T; subst; reflexivity].
      destruct (is_scalar x); [discriminate T |].
      assert (G : forall q s, like q (d_ind v) -> grow s q = q) by (intros [] s Q; rewrite D in Q; cbn in *; tauto).
      rewrite !G in T by assumption. inversion T; subst v1. destruct v; reflexivity. }
    rewrite W. reflexivity.
Qed.

(** One vector with three boundaries, then two data indices. *)
Definition three : res vdata := construct (Sc 0%Z) (Ar [0; 1; 2]%Z) (num 75) (num 1) (num 350) (num 1) (num 0) (num 0) nan (nums [70; 71; 72]) (nums [1; 1; 1]) (nums [0; 0; 0]).
(** Two vectors with one boundary. *)
Definition two : res vdata := construct (Ar [0; 1]%Z) (Sc 0%Z) (nums [75; 80]) (nums [1; 2]) (num 350) (nums [1; 3]) (num 0) (num 0) nan (nums [70; 71]) (nums [1; 1]) (nums [0; 0]).

Theorem C134_index_refuted :
  exists v x v' e, two = Ok v /\ do_assign (DatInd x) v = (v', Some e) /\ d_ind v' <> d_ind v /\ ~ like (d_n v') (d_ind v').
Proof.
  eexists. exists (Ar [0; 1; 2]%Z). eexists _, _. split; [ev; reflexivity |]. split; [ev; reflexivity |]. split; [ev; discriminate |]. ev. discriminate.
Qed.
Theorem C134_coordinates_refuted :
  exists v x v' e, two = Ok v /\ do_assign (OcbInd x) v = (v', Some e) /\ o_lat v = nums [70; 71] /\ coords_unset v' /\
    exists v'', do_assign (OcbInd (o_ind v)) v' = (v'', None) /\ coords_unset v''.
Proof.
  eexists. exists (Ar [0; 1; 2]%Z). eexists _, _. split; [ev; reflexivity |]. split; [ev; reflexivity |]. split; [ev; reflexivity |].
  assert (U : undefined (Ar [None; None; None])).
  { intros [| [| [| i]]] y; cbn; try congruence. destruct i; discriminate. }
  split; [split; [ev; exact U | split; ev; exact U] |]. eexists. split; [ev; reflexivity |]. split; [exact U | split; exact U].
Qed.
Theorem C134_components_refuted :
  (* and the old data index can no longer be put back *)
  exists v x v' e, three = Ok v /\ do_assign (DatInd x) v = (v', Some e) /\ d_n v = num 1 /\ d_n v' = nums [1; 1] /\
    exists v'', do_assign (DatInd (d_ind v)) v' = (v'', Some ValueError).
Proof.
  eexists. exists (Ar [0; 1]%Z). eexists _, _. split; [ev; reflexivity |]. split; [ev; reflexivity |]. split; [ev; reflexivity |]. split; [ev; reflexivity |].
  eexists. ev. reflexivity.
Qed.
Example C134_case :
  exists v v' v'', two = Ok v /\ do_assign (DatInd (Sc 4%Z)) v = (v', Some ValueError) /\ do_assign (DatInd (Ar [0; 1]%Z)) v' = (v'', None) /\ d_n v'' = nums [1; 3].
Proof. eexists _, _, _. split; [ev; reflexivity |]. split; [ev; reflexivity |]. split; ev; reflexivity. Qed.
Print Assumptions C134_rejected_partial.
Print Assumptions C134_index_refuted.
Print Assumptions C134_coordinates_refuted.
Print Assumptions C134_components_refuted.

(** ** C135 *)
Theorem C135_boundary_index_partial :
  (* missing: for one boundary index the coordinates can stay those of several
     (C135_one_index_refuted) *)
  forall v x, reachable v ->
    ((exists v', do_assign (OcbInd x) v = (v', None)) <-> scalar_value (d_ind v) \/ scalar_value x \/ like x (d_ind v)) /\
    forall v', do_assign (OcbInd x) v = (v', None) ->
      o_ind v' = x /\ d_ind v' = d_ind v /\ d_n v' = d_n v /\ d_e v' = d_e v /\ d_z v' = d_z v /\
      d_lat v' = d_lat v /\ d_lt v' = d_lt v /\ d_h v' = d_h v /\ d_mag v' = d_mag v /\
      (coords_kept v v' \/ coords_unset v') /\ no_results (d_out v') /\
      (~ scalar_value (d_ind v) -> results_like (d_out v') (d_ind v)) /\
      (~ scalar_value x -> results_like (d_out v') x /\
         forall i, place x i -> exists a b c, at_ (o_lat v') i = Some a /\ at_ (o_mlt v') i = Some b /\ at_ (o_rc v') i = Some c).
Proof.
  intros v x RV. pose proof (reachable_sound v RV) as SV. pose proof (reachable_shape v RV) as HV. cbn [do_assign].
  assert (SCV : forall q : av Z, is_scalar q = true -> scalar_value q) by (intros []; cbn; auto; discriminate).
  assert (SCF : forall q : av Z, ~ scalar_value q -> is_scalar q = false) by (intros []; cbn; tauto).
  split.
  - split.
    + intros (v' & H). apply set_ocb_ok in H. destruct H as (_ & _ & _ & _ & _ & _ & _ & _ & _ & _ & _ & _ & _ & Q & _).
      destruct (is_scalar (d_ind v)) eqn:SD; [left; auto |]. destruct (is_scalar x) eqn:SX; [right; left; auto |].
      right; right. apply like_shape. rewrite <- Q by reflexivity. apply SV, SD.
    + intros C. destruct (set_ocb_form x v) as [(v1 & T & E) | [(T & E) | [(T & SD & E) | [(T & SD & Q & E) | (T & SD & SX & Q & E)]]]]; eauto; exfalso.
      * unfold test_bound in T. cbn [with_oind d_ind o_ind o_lat o_mlt o_rc d_vs] in T.
        match type of T with (if ?c then _ else _) = _ => destruct c eqn:E0; [discriminate T |] end.
        destruct (is_scalar x) eqn:SX; [discriminate T |]. destruct (is_scalar (d_ind v)) eqn:SD; [discriminate T |].
        match type of T with (if ?c then _ else _) = _ => destruct c eqn:E1; [discriminate T |] end.
        rewrite (SV SD) in E1. destruct C as [C | [C | C]].
        -- destruct (d_ind v); cbn in *; [discriminate SD | tauto].
        -- destruct x; cbn in *; [discriminate SX | tauto].
        -- apply like_shape in C. cbn [negb andb] in E0. rewrite <- orb_assoc in E0. apply orb_false_iff in E0. destruct E0 as (E0 & _).
           apply orb_false_iff in E0. destruct E0 as (_ & E0). rewrite C in E0. rewrite E1 in E0. discriminate E0.
      * rewrite (SV SD) in Q. destruct C as [C | [C | C]].
        -- destruct (d_ind v); cbn in *; [discriminate SD | tauto].
        -- destruct x; cbn in *; [discriminate SX | tauto].
        -- apply like_shape in C. congruence.
  - intros v' H. pose proof (assign_shape (OcbInd x) v v' H HV) as (xs & HS).
    apply set_ocb_ok in H. destruct H as (D & O & La & Lt_ & Hh & N & E & Z & M & Co & Cl & V1 & V2 & V3 & V4).
    split; [exact O |]. do 8 (split; [assumption |]).
    split.
    { destruct Co as [Co | Co]; [left; exact Co | right]. cbv zeta in Co. destruct Co as (E1 & E2 & E3). unfold coords_unset. rewrite E1, E2, E3.
      repeat split; intros i y A; eapply full_at; exact A. }
    split; [rewrite Cl, HS; apply cleared_none |].
    split; [intros S; apply SCF in S; rewrite Cl, V1, SV by exact S; apply cleared_like |].
    intros S. apply SCF in S. split.
    + rewrite Cl. destruct (is_scalar (d_ind v)) eqn:SD; [rewrite V2 by auto | rewrite V1, V3 by auto]; apply cleared_like.
    + intros i P. specialize (V4 S).
      assert (G : forall q : av fl, shape_of q = [] \/ shape_of q = shape_of x -> exists a, at_ q i = Some a).
      { intros [a | l] Q; cbn [at_]; [eauto |]. destruct Q as [Q | Q]; [discriminate Q |]. destruct x as [z | m]; [discriminate Q |].
        cbn in P, Q. destruct (nth_error l i) eqn:NE; [eauto |]. apply nth_error_None in NE. inversion Q. lia. }
      destruct (G (o_lat v') ltac:(apply V4; cbn; tauto)) as (a & ->).
      destruct (G (o_mlt v') ltac:(apply V4; cbn; tauto)) as (b & ->).
      destruct (G (o_rc v') ltac:(apply V4; cbn; tauto)) as (c & ->). eauto 8.
Qed.
Theorem C135_one_index_refuted :
  exists v v', three = Ok v /\ do_assign (OcbInd (Sc 2%Z)) v = (v', None) /\ o_lat v' = nums [70; 71; 72] /\ ~ results_like (d_out v') (o_ind v').
Proof.
  eexists _, _. split; [ev; reflexivity |]. split; [ev; reflexivity |]. split; [ev; reflexivity |]. ev. intros (X & _). exact X.
Qed.
Lemma constructed dat ocb lat lt h n e z mag olat omlt rc v : construct dat ocb lat lt h n e z mag olat omlt rc = Ok v -> reachable v.
Proof. intros C. exists dat, ocb, lat, lt, h, n, e, z, mag, olat, omlt, rc, v, []. split; [exact C | reflexivity]. Qed.
Example C135_case :
  exists v v', three = Ok v /\ reachable v /\ do_assign (OcbInd (Ar [5; 6]%Z)) v = (v', None) /\ o_lat v' = Ar [None; None] /\ r_n (d_out v') = Ar [None; None].
Proof.
  assert (H : exists v v', three = Ok v /\ do_assign (OcbInd (Ar [5; 6]%Z)) v = (v', None) /\ o_lat v' = Ar [None; None] /\ r_n (d_out v') = Ar [None; None]).
  { eexists _, _. split; [ev; reflexivity |]. split; [ev; reflexivity |]. split; ev; reflexivity. }
  destruct H as (v & v' & E & R). exists v, v'. split; [exact E |]. split; [exact (constructed _ _ _ _ _ _ _ _ _ _ _ _ _ E) | exact R].
Qed.
Print Assumptions C135_boundary_index_partial.
Print Assumptions C135_one_index_refuted.

(** ** C137 *)
(** The value stored for an assignment to a location or a coordinate of the boundary. *)
Definition stored (ind : av Z) (given now : av fl) : Prop := forall i, place ind i -> at_ now i = at_ given i.
Definition value_only (a : assign) : Prop := match a with DatInd _ | OcbInd _ | Magn _ => False | _ => True end.

Theorem C137_value_assigned_partial :
  (* missing: the magnitude and the results are not those of the new values
     (C137_magnitude_refuted, C137_results_refuted), and the number of values is not tested
     (C137_count_refuted) *)
  forall a v, value_only a -> exists v', do_assign a v = (v', None) /\
    d_ind v' = d_ind v /\ o_ind v' = o_ind v /\ d_mag v' = d_mag v /\ d_out v' = d_out v /\
    match a with Lat x => stored (d_ind v) x (d_lat v') | _ => d_lat v' = d_lat v end /\
    match a with Lt x => stored (d_ind v) x (d_lt v') | _ => d_lt v' = d_lt v end /\
    match a with Height x => stored (d_ind v) x (d_h v') | _ => d_h v' = d_h v end /\
    match a with North x => d_n v' = x | _ => d_n v' = d_n v end /\
    match a with East x => d_e v' = x | _ => d_e v' = d_e v end /\
    match a with Vert x => d_z v' = x | _ => d_z v' = d_z v end /\
    match a with OcbLat x => stored (o_ind v) x (o_lat v') | _ => o_lat v' = o_lat v end /\
    match a with OcbMlt x => stored (o_ind v) x (o_mlt v') | _ => o_mlt v' = o_mlt v end /\
    match a with RCorr x => stored (o_ind v) x (o_rc v') | _ => o_rc v' = o_rc v end.
Proof.
  intros a v H. destruct a; cbn [value_only] in H; try tauto; cbn [do_assign]; eexists; (split; [reflexivity |]);
    cbn [with_lat with_lt with_h with_nez with_coords d_ind o_ind d_lat d_lt d_h d_n d_e d_z d_mag o_lat o_mlt o_rc d_vs d_out];
    repeat match goal with |- _ /\ _ => split end; try reflexivity; intros i P; apply sized_at, P.
Qed.
Theorem C137_magnitude_refuted :
  exists v v' m, vector_data (Sc 0%Z) (Sc 0%Z) (num 75) (num 1) (num 1) (num 0) (num 0) = Ok v /\
    do_assign (North (num 3)) v = (v', None) /\ d_mag v' = Sc m /\ d_n v' = num 3 /\ ~ is_length m (Some 3) (Some 0) (Some 0).
Proof.
  eexists _, _, _. split; [ev; reflexivity |]. split; [ev; reflexivity |]. split; [ev; reflexivity |]. split; [ev; reflexivity |].
  cbn [is_length]. intros (y & E & P & Q). injection E as <-.
  match type of Q with context [sqrt ?x] => replace x with 1 in Q by ring end. rewrite sqrt_1 in Q. lra.
Qed.
Theorem C137_results_refuted :
  (* whatever results the object has, they stay when its values are replaced *)
  forall v x, exists v', run [North x; Lat (num 60); OcbLat (num 70)] v = Ok v' /\ d_n v' = x /\ d_out v' = d_out v.
Proof. intros v x. eexists. split; [reflexivity |]. split; reflexivity. Qed.
Theorem C137_count_refuted :
  exists v v', two = Ok v /\ do_assign (Lat (nums [60; 61; 62])) v = (v', None) /\ d_lat v' = nums [60; 61; 62] /\ ~ like (d_lat v') (d_ind v').
Proof.
  eexists _, _. split; [ev; reflexivity |]. split; [ev; reflexivity |]. split; [ev; reflexivity |]. ev. discriminate.
Qed.
Example C137_case :
  exists v v', two = Ok v /\ do_assign (Lat (num 60)) v = (v', None) /\ d_lat v' = nums [60; 60].
Proof. eexists _, _. split; [ev; reflexivity |]. split; ev; reflexivity. Qed.
Print Assumptions C137_value_assigned_partial.
Print Assumptions C137_magnitude_refuted.
Print Assumptions C137_results_refuted.
Print Assumptions C137_count_refuted.

(** ** C138 *)
Lemma all_nan_undefined x : undefined x <-> all_nan x = true.
Proof.
  unfold undefined. destruct x as [a | l]; cbn [at_ all_nan].
  - split; [intros H; rewrite (H 0%nat a eq_refl); reflexivity | intros H i y E; inversion E; subst; destruct y; [discriminate H | reflexivity]].
  - rewrite forallb_forall. split.
    + intros H y I. apply In_nth_error in I. destruct I as (i & E). rewrite (H i y E). reflexivity.
    + intros H i y E. apply nth_error_In in E. specialize (H y E). destruct y; [discriminate H | reflexivity].
Qed.
Definition magnitude_at (v : vdata) (i : nat) : Prop :=
  exists m a b c, at_ (d_mag v) i = Some m /\ at_ (d_n v) i = Some a /\ at_ (d_e v) i = Some b /\ at_ (d_z v) i = Some c /\ is_length m a b c.
Lemma at_place (x : av fl) (ind : av Z) i : like x ind -> place ind i -> exists a, at_ x i = Some a.
Proof.
  destruct x as [a | l], ind as [z | m]; cbn; try tauto; [eauto |]. intros L P. destruct (nth_error l i) eqn:E; [eauto |]. apply nth_error_None in E. lia.
Qed.

Theorem C138_magnitude_partial :
  (* missing: a given magnitude is replaced when the data index is assigned
     (C138_given_refuted); the magnitude can be one number for several vectors
     (C138_shape_refuted) *)
  forall dat ocb lat lt h n e z mag olat omlt rc v,
    construct dat ocb lat lt h n e z mag olat omlt rc = Ok v ->
    (undefined mag -> forall hist v', Forall index_only hist -> run hist v = Ok v' -> forall i, place (d_ind v') i -> magnitude_at v' i) /\
    (~ undefined mag -> d_mag v = mag /\
       forall hist v', Forall (fun a => exists x, a = OcbInd x) hist -> run hist v = Ok v' -> d_mag v' = mag).
Proof.
  intros dat ocb lat lt h n e z mag olat omlt rc v C. apply construct_ok in C.
  destruct C as (D & O & _ & _ & _ & _ & _ & _ & Ln & Le & Lz & _ & _ & At & M & Sn & Se & Sz & _).
  split.
  - intros U hist v' F R. apply all_nan_undefined in U. rewrite U in M.
    destruct (lengths_at n e z (shape_of dat) Sn Se Sz) as (m & Em & _ & _ & Am). rewrite M in Em. injection Em as <-.
    assert (M0 : forall i, place (d_ind v) i -> magnitude_at v i).
    { rewrite D. intros i P. destruct (At i P) as (E1 & E2 & E3).
      destruct (at_place _ _ i Ln P) as (a & A). destruct (at_place _ _ i Le P) as (b & B). destruct (at_place _ _ i Lz P) as (c & Cc).
      destruct (Am i a b c) as (q & Q & L); try congruence. exists q, a, b, c. auto. }
    assert (S0 : settled v) by (unfold settled; rewrite D; auto).
    clear - F R M0 S0. revert v F R M0 S0. induction hist as [| a hist IH]; intros v F R M0 S0; cbn [run] in R; [inversion R; subst; exact M0 |].
    inversion F; subst. destruct (do_assign a v) as [v1 [er |]] eqn:E; [discriminate R |].
    destruct (index_step a v v1 H1 E S0) as (S1 & _). apply (IH v1 H2 R); [| exact S1].
    intros i P. destruct a as [x | x | | | | | | | | | |]; cbn [index_only] in H1; try tauto; cbn [do_assign] in E.
    + apply set_dat_ok in E. destruct E as (D & _ & _ & _ & _ & _ & _ & _ & Ln & Le & Lz & _ & Lm & _). rewrite D in P.
      destruct (at_place _ _ i Ln P) as (p & A). destruct (at_place _ _ i Le P) as (b & B). destruct (at_place _ _ i Lz P) as (c & Cc).
      destruct (Lm i p b c A B Cc) as (q & Q & L). exists q, p, b, c. auto.
    + apply set_ocb_ok in E. destruct E as (D & _ & _ & _ & _ & N & Ee & Zz & Mm & _). rewrite D in P. unfold magnitude_at. rewrite N, Ee, Zz, Mm. apply M0, P.
  - intros U. assert (NU : all_nan mag = false) by (destruct (all_nan mag) eqn:X; [exfalso; apply U, all_nan_undefined, X | reflexivity]).
    rewrite NU in M. split; [exact M |]. intros hist v' F R. clear -M F R. revert v M F R.
    induction hist as [| a hist IH]; intros v M F R; cbn [run] in R; [inversion R; subst; reflexivity |].
    inversion F as [| q l (x & ->) F' EQ]; subst. destruct (do_assign (OcbInd x) v) as [v1 [er |]] eqn:E; [discriminate R |].
    apply (IH v1); try assumption. cbn [do_assign] in E. apply set_ocb_ok in E. destruct E as (_ & _ & _ & _ & _ & _ & _ & _ & Mm & _). congruence.
Qed.
Theorem C138_given_refuted :
  exists v v', construct (Sc 0%Z) (Sc 0%Z) (num 75) (num 1) (num 350) (num 1) (num 0) (num 0) (num 5) nan nan nan = Ok v /\
    d_mag v = num 5 /\ do_assign (DatInd (Sc 1%Z)) v = (v', None) /\ d_mag v' <> num 5.
Proof.
  eexists _, _. split; [ev; destruct (Rle_dec 0 0); reflexivity |]. split; [ev; reflexivity |]. split; [ev; reflexivity |]. ev. intros E.
  injection E as E. match type of E with context [sqrt ?x] => replace x with 1 in E by ring end. rewrite sqrt_1 in E. lra.
Qed.
Theorem C138_shape_refuted :
  exists v, vector_data (Ar [0; 1]%Z) (Sc 0%Z) (nums [75; 80]) (nums [1; 2]) (num 1) (num 0) (num 0) = Ok v /\
    d_n v = nums [1; 1] /\ ~ like (d_mag v) (d_ind v).
Proof. eexists. split; [ev; reflexivity |]. split; ev; [reflexivity | tauto]. Qed.
(** A magnitude of one element is taken for two vectors, and kept with one element; one of
    three elements raises. *)
Theorem C138_one_element_refuted :
  (exists v, construct (Ar [0; 1]%Z) (Sc 0%Z) (nums [75; 80]) (nums [1; 2]) (num 350) (nums [1; 3]) (num 0) (num 0) (nums [5]) nan nan nan = Ok v /\
     d_mag v = nums [5] /\ ~ like (d_mag v) (d_ind v)) /\
  construct (Ar [0; 1]%Z) (Sc 0%Z) (nums [75; 80]) (nums [1; 2]) (num 350) (nums [1; 3]) (num 0) (num 0) (nums [5; 6; 7]) nan nan nan = Err ValueError.
Proof.
  split; [| ev; reflexivity]. eexists. split; [ev; reflexivity |]. split; ev; [reflexivity | lia].
Qed.
Example C138_case :
  exists v v', vector_data (Ar [0; 1]%Z) (Sc 0%Z) (nums [75; 80]) (nums [1; 2]) (nums [3; 5]) (num 4) (num 0) = Ok v /\
    run [OcbInd (Ar [3; 4]%Z); DatInd (Ar [7; 8]%Z)] v = Ok v' /\ d_mag v' = Ar [Some (sqrt (3 ^ 2 + 4 ^ 2 + 0 ^ 2)); Some (sqrt (5 ^ 2 + 4 ^ 2 + 0 ^ 2))].
Proof. eexists _, _. split; [ev; reflexivity |]. split; ev; reflexivity. Qed.
Print Assumptions C138_magnitude_partial.
Print Assumptions C138_given_refuted.
Print Assumptions C138_shape_refuted.
Print Assumptions C138_one_element_refuted.
