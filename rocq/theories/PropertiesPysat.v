(** The pysat interface: C70-C72 and C112-C117. *)
From Coq Require Import String Ascii ZArith QArith List Bool Sorted Permutation Lia.
From Verif Require Import PyBase TimeModel FilesModel FilesProofs SmagModel CycleModel CycleSpec CycleProofs DriverModel PropertiesCycle PysatModel PysatSpec PysatProofs PysatProofs2 PysatProofs3 PysatProofs4.
Import ListNotations.
Open Scope string_scope.
Open Scope list_scope.
Open Scope Z_scope.

(** ** C70: the boundary named by the file *)
(** Name in lower case [n]: boundaries are told from "ocb" or "eab" inside the name, not at its
    start, the other being absent; "dual" is the dual boundary; anything else is refused.  (A
    name that is just a type never gets to be "default" other than for "dual".) *)
Theorem C70_boundary_from_name_partial f p n : file_part f p -> lower_case p n ->
  (choose (Some f) = Ok (KOcb, Some f) <-> mentions (s2l "ocb") n /\ ~ begins (s2l "ocb") n /\ ~ mentions (s2l "eab") n) /\
  (choose (Some f) = Ok (KEab, Some f) <-> mentions (s2l "eab") n /\ ~ begins (s2l "eab") n /\ ~ mentions (s2l "ocb") n) /\
  (choose (Some f) = Ok (KDual, None) <-> n = s2l "dual") /\
  (choose (Some f) = Err ValueError <-> n <> s2l "dual" /\
     ((mentions (s2l "ocb") n <-> mentions (s2l "eab") n) \/ begins (s2l "ocb") n \/ begins (s2l "eab") n)).
Proof.
  intros F L. apply lowers_spec in L. subst n. apply last_split in F. subst p. set (n := lowers (base_name f)).
  assert (NL : ~ begins (s2l "ocb") n -> ~ begins (s2l "eab") n -> n <> s2l "dual" -> member (lowers f) (map s2l ["eab"; "ocb"; "dual"]) = false).
  { intros A B C. destruct (member (lowers f) (map s2l ["eab"; "ocb"; "dual"])) eqn:M; [|reflexivity]. exfalso. apply member_spec in M.
    assert (NS : ~ In "/"%char f).
    { intros I. apply (in_map PyString.lower_char) in I. change (PyString.lower_char "/") with "/"%char in I. fold (lowers f) in I. cbn [map In] in M.
      destruct M as [M|[M|[M|[]]]]; rewrite <- M in I; cbn in I; repeat destruct I as [I|I]; try discriminate; destruct I. }
    assert (E : base_name f = f) by (apply last_split; split; [exact NS|left; reflexivity]). unfold n in *. rewrite E in *.
    cbn [map In] in M. destruct M as [M|[M|[M|[]]]]; [apply B|apply A|apply C]; try (exists []; rewrite app_nil_r); symmetry; exact M. }
  pose proof (find_zero (s2l "ocb") n) as ZO. pose proof (find_zero (s2l "eab") n) as ZE. pose proof (find_none (s2l "ocb") n) as NO. pose proof (find_none (s2l "eab") n) as NE.
  pose proof (str_eqb_spec n (s2l "dual")) as D.
  assert (DO : n = s2l "dual" -> find (s2l "ocb") n = None /\ find (s2l "eab") n = None) by (intros ->; split; reflexivity).
  unfold choose. fold n. destruct (find (s2l "ocb") n) as [[|a]|] eqn:FO.
  - (* begins with ocb *)
    assert (BO : begins (s2l "ocb") n) by (apply ZO; reflexivity). assert (MO : mentions (s2l "ocb") n) by (destruct BO as [r ->]; exists [], r; reflexivity).
    assert (ND : n <> s2l "dual") by (intros X; destruct (DO X); discriminate). cbn [andb]. rewrite (str_eqb_neq _ _ ND).
    split; [split; [discriminate|intros (_ & X & _); contradiction]|]. split; [split; [discriminate|intros (_ & _ & X); contradiction]|]. split; [split; [discriminate|contradiction]|].
    split; [intros _; split; [exact ND|right; left; exact BO]|reflexivity].
  - assert (MO : mentions (s2l "ocb") n) by (destruct (contains (s2l "ocb") n) eqn:X; [apply mentions_spec; exact X|unfold contains in X; rewrite FO in X; discriminate]).
    assert (BO : ~ begins (s2l "ocb") n) by (intros X; apply ZO in X; discriminate).
    assert (ND : n <> s2l "dual") by (intros X; destruct (DO X); discriminate).
    destruct (find (s2l "eab") n) as [e|] eqn:FE; cbn [andb].
    + assert (ME : mentions (s2l "eab") n) by (destruct (contains (s2l "eab") n) eqn:X; [apply mentions_spec; exact X|unfold contains in X; rewrite FE in X; discriminate]).
      rewrite (str_eqb_neq _ _ ND). split; [split; [discriminate|intros (_ & _ & X); contradiction]|]. split; [split; [discriminate|intros (_ & _ & X); contradiction]|]. split; [split; [discriminate|contradiction]|].
      split; [intros _; split; [exact ND|left; split; intros _; assumption]|reflexivity].
    + assert (ME : ~ mentions (s2l "eab") n) by (apply NE; reflexivity). assert (BE : ~ begins (s2l "eab") n) by (intros X; apply ZE in X; discriminate). rewrite (NL BO BE ND).
      split; [split; [intros _; split; [exact MO|split; assumption]|reflexivity]|]. split; [split; [discriminate|intros (X & _); contradiction]|]. split; [split; [discriminate|contradiction]|].
      split; [discriminate|]. intros [_ [[X _]|[X|X]]]; exfalso; [apply ME, X, MO|contradiction|contradiction].
  - assert (MO : ~ mentions (s2l "ocb") n) by (apply NO; reflexivity). assert (BO : ~ begins (s2l "ocb") n) by (intros X; apply ZO in X; discriminate). cbn [andb].
    destruct (find (s2l "eab") n) as [[|e]|] eqn:FE; cbn [andb].
    + assert (BE : begins (s2l "eab") n) by (apply ZE; reflexivity). assert (ND : n <> s2l "dual") by (intros X; destruct (DO X); discriminate). rewrite (str_eqb_neq _ _ ND).
      split; [split; [discriminate|intros (X & _); contradiction]|]. split; [split; [discriminate|intros (_ & X & _); contradiction]|]. split; [split; [discriminate|contradiction]|].
      split; [intros _; split; [exact ND|right; right; exact BE]|reflexivity].
    + assert (ME : mentions (s2l "eab") n) by (destruct (contains (s2l "eab") n) eqn:X; [apply mentions_spec; exact X|unfold contains in X; rewrite FE in X; discriminate]).
      assert (BE : ~ begins (s2l "eab") n) by (intros X; apply ZE in X; discriminate). assert (ND : n <> s2l "dual") by (intros X; destruct (DO X); discriminate). rewrite (NL BO BE ND).
      split; [split; [discriminate|intros (X & _); contradiction]|]. split; [split; [intros _; split; [exact ME|split; assumption]|reflexivity]|]. split; [split; [discriminate|contradiction]|].
      split; [discriminate|]. intros [_ [[_ X]|[X|X]]]; exfalso; [apply MO, X, ME|contradiction|contradiction].
    + assert (ME : ~ mentions (s2l "eab") n) by (apply NE; reflexivity).
      split; [split; [destruct (str_eqb n (s2l "dual")); discriminate|intros (X & _); contradiction]|]. split; [split; [destruct (str_eqb n (s2l "dual")); discriminate|intros (X & _); contradiction]|].
      destruct (str_eqb n (s2l "dual")) eqn:SD.
      * assert (n = s2l "dual") by (apply D; reflexivity). split; [split; [intros _; assumption|reflexivity]|]. split; [discriminate|]. intros [X _]. contradiction.
      * assert (ND : n <> s2l "dual") by (intros X; apply D in X; discriminate). split; [split; [discriminate|contradiction]|].
        split; [intros _; split; [exact ND|left; split; intros X; contradiction]|reflexivity].
Qed.
(** The documented requests for the default boundaries, "ocb" being the default of the argument. *)
Theorem C70_default_refuted : choose (Some (s2l "ocb")) = Err ValueError /\ choose (Some (s2l "eab")) = Err ValueError /\ choose (Some (s2l "dual")) = Ok (KDual, None) /\ choose None = Err ValueError.
Proof. repeat split; vm_compute; reflexivity. Qed.
Example C70_case : choose (Some (s2l "/data/ocb/Amp_north_radii.OCB")) = Ok (KOcb, Some (s2l "/data/ocb/Amp_north_radii.OCB")) /\
  choose (Some (s2l "/data/ocb/si13.eab")) = Ok (KEab, Some (s2l "/data/ocb/si13.eab")) /\ choose (Some (s2l "x_eab.ocb")) = Err ValueError.
Proof. repeat split; vm_compute; reflexivity. Qed.

(** ** C112: the hemisphere of the data *)
Theorem C112_given h lat : lat <> [] -> detect_hemisphere (sign_of h) lat = Ok (sign_of h).
Proof. intros N. destruct lat as [|x lat]; [congruence|]. destruct h; reflexivity. Qed.
Theorem C112_detected_partial h lat : (exists x, In x lat /\ x <> NaN) -> (forall x, In x lat -> x = NaN \/ on h x) -> detect_hemisphere (Fin 0) lat = Ok (sign_of h).
Proof.
  intros (x & I & Nx) A. destruct (nanmax_spec lat) as (X1 & X2 & X3). destruct (nanmin_spec lat) as (M1 & M2 & M3).
  assert (NX : nanmax lat <> NaN) by (intros E; apply Nx; exact (X1 E x I)). assert (NM : nanmin lat <> NaN) by (intros E; apply Nx; exact (M1 E x I)).
  assert (SX : nsign (nanmax lat) = sign_of h) by (apply nsign_side'; destruct X2 as [E|J]; [contradiction|]; destruct (A _ J) as [E|O]; [contradiction|exact O]).
  assert (SM : nsign (nanmin lat) = sign_of h) by (apply nsign_side'; destruct M2 as [E|J]; [contradiction|]; destruct (A _ J) as [E|O]; [contradiction|exact O]).
  unfold detect_hemisphere. rewrite SX, SM. destruct lat as [|y l]; [destruct I|]. destruct h; reflexivity.
Qed.
(** Southern data touching the equator is still southern. *)
Theorem C112_south_and_equator lat : (exists x, In x lat /\ on South x) -> (forall x, In x lat -> ~ on North x) -> detect_hemisphere (Fin 0) lat = Ok (sign_of South).
Proof.
  intros (x & I & Ox) A. destruct (nanmax_spec lat) as (X1 & X2 & X3). destruct (nanmin_spec lat) as (M1 & M2 & M3).
  assert (Nx : x <> NaN) by (intros ->; discriminate).
  assert (SM : nsign (nanmin lat) = Fin (-1)).
  { apply (nsign_side' South). cbn [on]. specialize (M3 x I). cbn [on] in Ox. destruct (nlt (nanmin lat) (Fin 0)) eqn:E; [reflexivity|].
    exfalso. assert (NM : nanmin lat <> NaN) by (intros Z; apply Nx; exact (M1 Z x I)). rewrite (nlt_irr_trans _ _ _ M3 E NM) in Ox. discriminate. }
  unfold detect_hemisphere. rewrite SM. destruct lat as [|y l]; [destruct I|].
  assert (NX : nanmax (y :: l) <> NaN) by (intros E; apply Nx; exact (X1 E x I)).
  assert (ON : ~ on North (nanmax (y :: l))) by (destruct X2 as [E|J]; [contradiction|exact (A _ J)]).
  set (m := nanmax (y :: l)) in *. clearbody m. clear -NX ON. cbn [neqb]. change (Qeq_bool 0 0) with true. cbv iota. destruct m as [| |q|]; cbn in *; try congruence; try reflexivity.
  destruct (Qeq_bool q 0) eqn:Z; [reflexivity|]. destruct (Qle_bool 0 q) eqn:L; [|reflexivity]. exfalso. apply ON. apply Qle_bool_iff in L. apply Qeq_bool_neq in Z.
  destruct (Qle_bool q 0) eqn:M; [|reflexivity]. apply Qle_bool_iff in M. exfalso. apply Z. apply Qle_antisym; assumption.
Qed.
Theorem C112_both_refused lat x y : In x lat -> In y lat -> on North x -> on South y -> detect_hemisphere (Fin 0) lat = Err ValueError.
Proof.
  intros I J Ox Oy. destruct (nanmax_spec lat) as (X1 & X2 & X3). destruct (nanmin_spec lat) as (M1 & M2 & M3).
  assert (Nx : x <> NaN) by (intros ->; discriminate). assert (Ny : y <> NaN) by (intros ->; discriminate).
  assert (SX : nsign (nanmax lat) = Fin 1).
  { apply (nsign_side' North). cbn [on]. cbn [on] in Ox. destruct (nlt (Fin 0) (nanmax lat)) eqn:E; [reflexivity|].
    exfalso. assert (NM : nanmax lat <> NaN) by (intros Z; apply Nx; exact (X1 Z x I)). rewrite (nlt_irr_trans _ _ _ E (X3 x I) NM) in Ox. discriminate. }
  assert (SM : nsign (nanmin lat) = Fin (-1)).
  { apply (nsign_side' South). cbn [on]. cbn [on] in Oy. destruct (nlt (nanmin lat) (Fin 0)) eqn:E; [reflexivity|].
    exfalso. assert (NM : nanmin lat <> NaN) by (intros Z; apply Ny; exact (M1 Z y J)). rewrite (nlt_irr_trans _ _ _ (M3 y J) E NM) in Oy. discriminate. }
  unfold detect_hemisphere. rewrite SX, SM. destruct lat; [destruct I|]. reflexivity.
Qed.
(** Northern data touching the equator is refused. *)
Theorem C112_north_and_equator_refuted : detect_hemisphere (Fin 0) [Fin 0; Fin 70] = Err ValueError /\ ~ (exists y, In y [Fin 0; Fin 70] /\ on South y).
Proof. split; [vm_compute; reflexivity|]. intros (y & [<-|[<-|[]]] & O); discriminate. Qed.
Example C112_case : detect_hemisphere (Fin 0) [NaN; Fin 70; Fin 81] = Ok (Fin 1) /\ detect_hemisphere (Fin 0) [Fin 0; Fin (-70)] = Ok (Fin (-1)) /\ detect_hemisphere (Fin 0) [Fin 70; NaN; Fin (-70)] = Err ValueError.
Proof. repeat split; vm_compute; reflexivity. Qed.

(** ** C71 and C113: the samples converted *)
Section Samples.
Context {V : Type} (conv : Z -> Z -> V).
Variables (b : boundary) (rows : list (Z * (num * list num))) (max_sdiff : Z) (mn mx : option num) (ks : list crit).
Definition sorted_input : Prop := wf_boundary b /\ wf_crits b ks /\ strictly_time_sorted (b_dtime b) /\ time_sorted (map fst rows) /\ 0 <= max_sdiff /\ -1 <= b_rec_ind b < b_records b.
Definition usable_record : Z -> Prop := candidate (good_record b mn mx ks) (b_records b) (b_rec_ind b).
Definition near (r : Z) (s : nat) : Prop := within (b_dtime b) (map fst rows) (max_sdiff * 1000000) r (Z.of_nat s).
(** [out] holds for every row the values at the closest usable record when the row is
    [accepted] and that record is near enough, else no value. *)
Definition converted (accepted : num -> list num -> Prop) (out : list (option V)) : Prop :=
  length out = length rows /\
  forall s t lat vs, nth_error rows s = Some (t, (lat, vs)) ->
    (forall r, accepted lat vs -> closest (b_dtime b) (map fst rows) usable_record (Z.of_nat s) r -> near r s -> nth_error out s = Some (Some (conv r (Z.of_nat s)))) /\
    (~ accepted lat vs \/ (forall r, usable_record r -> ~ near r s) -> nth_error out s = Some None).
Lemma output_spec keepf (accepted : num -> list num -> Prop) : (forall lat vs, keepf (lat, vs) = true <-> accepted lat vs) -> sorted_input -> 0 < b_records b ->
  let r := convert conv false b (map fst rows) (map (fun r => keepf (snd r)) rows) max_sdiff mn mx ks in
  (exists out, r = Ok (Some out) /\ converted accepted out) \/
  (r = Err TypeError /\ forall s t lat vs r, nth_error rows s = Some (t, (lat, vs)) -> accepted lat vs -> usable_record r -> ~ near r s).
Proof.
  intros K (W & WC & SB & ST & T0 & RI) RP.
  assert (NK : forall s t lat vs, nth_error rows s = Some (t, (lat, vs)) -> nth_error (map (fun r => keepf (snd r)) rows) s = Some (keepf (lat, vs))).
  { intros s t lat vs E. rewrite nth_error_map, E. reflexivity. }
  destruct (convert_spec conv b (map fst rows) (map (fun r => keepf (snd r)) rows) max_sdiff mn mx ks W WC SB ST T0 RI) as [[E A]|(out & E & L & A)]; [rewrite !map_length; reflexivity|exact RP| |].
  - right. split; [exact E|]. intros s t lat vs r R Ac U N. apply (A s r); [|exact U|exact N]. rewrite (NK _ _ _ _ R). f_equal. apply K. exact Ac.
  - left. exists out. split; [exact E|]. rewrite map_length in L. split; [exact L|]. intros s t lat vs R.
    destruct (A s) as [A1 A2]; [rewrite map_length; apply nth_error_Some; congruence|]. split.
    + intros r Ac C N. apply A1; [rewrite (NK _ _ _ _ R); f_equal; apply K; exact Ac|exact C|exact N].
    + intros [H|H]; apply A2; [left|right; exact H]. rewrite (NK _ _ _ _ R). intros X. apply H. apply K. congruence.
Qed.
(** A pandas instrument: exactly the rows of the hemisphere with a finite value are converted,
    at the closest usable record; the failure of C10 is the only other outcome, and only when
    no row could be converted. *)
Theorem C113_rows_converted_partial h : sorted_input -> 0 < b_records b ->
  (exists out, pandas_output conv false b (sign_of h) rows max_sdiff mn mx ks = Ok (Some out) /\ converted (fun lat vs => on h lat /\ some_value vs) out) \/
  (pandas_output conv false b (sign_of h) rows max_sdiff mn mx ks = Err TypeError /\
   forall s t lat vs r, nth_error rows s = Some (t, (lat, vs)) -> on h lat /\ some_value vs -> usable_record r -> ~ near r s).
Proof. intros S R. apply (output_spec (pandas_keep (sign_of h))); [intros lat vs; apply pandas_keep_spec|exact S|exact R]. Qed.
Theorem C113_some_row_converts h s t lat vs r : sorted_input -> 0 < b_records b ->
  nth_error rows s = Some (t, (lat, vs)) -> on h lat -> some_value vs -> usable_record r -> near r s ->
  exists out, pandas_output conv false b (sign_of h) rows max_sdiff mn mx ks = Ok (Some out) /\ converted (fun lat vs => on h lat /\ some_value vs) out.
Proof.
  intros S R E O V' U N. destruct (C113_rows_converted_partial h S R) as [H|[_ H]]; [exact H|]. exfalso. exact (H _ _ _ _ _ E (conj O V') U N).
Qed.
Theorem C71_pandas h out : sorted_input -> pandas_output conv false b (sign_of h) rows max_sdiff mn mx ks = Ok (Some out) ->
  forall s t lat vs, nth_error rows s = Some (t, (lat, vs)) -> ~ on h lat -> nth_error out s = Some None.
Proof.
  intros S E s t lat vs R NO. assert (RP : 0 < b_records b).
  { destruct S as (_ & _ & _ & _ & _ & RI). destruct (Z.eq_dec (b_records b) 0) as [Z|N]; [|lia]. unfold pandas_output, convert in E. rewrite Z in E. discriminate. }
  destruct (C113_rows_converted_partial h S RP) as [(o & E' & _ & H)|[E' _]]; [|congruence]. assert (o = out) by congruence. subst o.
  destruct (H s t lat vs R) as [_ A]. apply A. left. intros [O _]. contradiction.
Qed.
Theorem C71_xarray_north_partial out : sorted_input -> xarray_output conv false b (sign_of North) rows max_sdiff mn mx ks = Ok (Some out) ->
  forall s t lat vs, nth_error rows s = Some (t, (lat, vs)) -> ~ on North lat -> nth_error out s = Some None.
Proof.
  intros S E s t lat vs R NO. assert (RP : 0 < b_records b).
  { destruct S as (_ & _ & _ & _ & _ & RI). destruct (Z.eq_dec (b_records b) 0) as [Z|N]; [|lia]. unfold xarray_output, convert in E. rewrite Z in E. discriminate. }
  destruct (output_spec (xarray_keep (sign_of North)) (fun lat vs => on North lat /\ some_value vs)) as [(o & E' & _ & H)|[E' _]]; try assumption.
  - intros l v. apply xarray_keep_north.
  - unfold xarray_output in E. assert (o = out) by congruence. subst o. destruct (H s t lat vs R) as [_ A]. apply A. left. intros [O _]. contradiction.
  - unfold xarray_output in E. congruence.
Qed.
(** With hemisphere -1 every row of an xarray instrument with a latitude and a finite value is
    converted, whatever its hemisphere. *)
Theorem C71_xarray_south_all_kept out : (forall r, In r rows -> fst (snd r) <> NaN) -> sorted_input -> xarray_output conv false b (sign_of South) rows max_sdiff mn mx ks = Ok (Some out) ->
  0 < b_records b -> converted (fun lat vs => some_value vs) out.
Proof.
  intros NN S E RP. destruct S as (W & WC & SB & ST & T0 & RI).
  assert (K : forall s t lat vs, nth_error rows s = Some (t, (lat, vs)) -> xarray_keep (sign_of South) (lat, vs) = true <-> some_value vs).
  { intros s t lat vs R. apply xarray_keep_south. apply (NN (t, (lat, vs))). eapply nth_error_In. exact R. }
  unfold xarray_output in E.
  destruct (convert_spec conv b (map fst rows) (map (fun r => xarray_keep (sign_of South) (snd r)) rows) max_sdiff mn mx ks W WC SB ST T0 RI) as [[E' _]|(o & E' & L & A)]; [rewrite !map_length; reflexivity|exact RP|congruence|].
  assert (o = out) by congruence. subst o. rewrite map_length in L. split; [exact L|]. intros s t lat vs R.
  assert (KE : nth_error (map (fun r => xarray_keep (sign_of South) (snd r)) rows) s = Some (xarray_keep (sign_of South) (lat, vs))) by (rewrite nth_error_map, R; reflexivity).
  destruct (A s) as [A1 A2]; [rewrite map_length; apply nth_error_Some; congruence|]. split.
  - intros r Ac C N. apply A1; [rewrite KE; f_equal; apply (K _ _ _ _ R); exact Ac|exact C|exact N].
  - intros [H|H]; apply A2; [left|right; exact H]. rewrite KE. intros X. apply H. apply (K _ _ _ _ R). congruence.
Qed.
End Samples.
(** [ex_b] is the example boundary of PropertiesCycle. *)
Definition ex_rows : list (Z * (num * list num)) :=
  [(10 * usec, (Fin 70, [Fin 70; Fin 5])); (20 * usec, (Fin (-70), [Fin (-70); Fin 5])); (200 * usec, (Fin 71, [Fin 71; NaN])); (400 * usec, (Fin 72, [Fin 72; Fin 3]))].
Example C113_case : pandas_output (fun r s => (r, s)) false (ex_b (-1)) (sign_of North) ex_rows 60 None None [] = Ok (Some [Some (0, 0); None; Some (4, 2); None]).
Proof. vm_compute. reflexivity. Qed.
Example C71_case : xarray_output (fun r s => (r, s)) false (ex_b (-1)) (sign_of North) ex_rows 60 None None [] = Ok (Some [Some (0, 0); None; Some (4, 2); None]).
Proof. vm_compute. reflexivity. Qed.
Theorem C71_xarray_south_refuted : exists rows out, time_sorted (map fst rows) /\ xarray_output (fun r s => (r, s)) false (ex_b (-1)) (sign_of South) rows 60 None None [] = Ok (Some out) /\
  exists s t lat vs v, nth_error rows s = Some (t, (lat, vs)) /\ on North lat /\ nth_error out s = Some (Some v).
Proof.
  exists ex_rows, [Some (0, 0); Some (0, 1); Some (4, 2); None]. split.
  - intros i j A B. assert (Hj : j < 4) by exact B. assert (E : (i = 0 \/ i = 1 \/ i = 2 \/ i = 3) /\ (j = 0 \/ j = 1 \/ j = 2 \/ j = 3)) by lia.
    destruct E as [[->|[->|[->| ->]]] [->|[->|[->| ->]]]]; try lia; vm_compute; discriminate.
  - split; [vm_compute; reflexivity|]. exists 0%nat, (10 * usec), (Fin 70), [Fin 70; Fin 5], (0, 0). split; [reflexivity|]. split; reflexivity.
Qed.
(** Data outside the period of the boundaries is a TypeError and not left without values. *)
Theorem C113_no_match_refuted : exists rows, pandas_output (fun r s => (r, s)) false (ex_b (-1)) (sign_of North) rows 60 None None [] = Err TypeError /\ rows <> [].
Proof. exists [(1000 * usec, (Fin 70, [Fin 70; Fin 5]))]. split; [vm_compute; reflexivity|discriminate]. Qed.

Print Assumptions C70_boundary_from_name_partial.
Print Assumptions C70_default_refuted.
Print Assumptions C112_given.
Print Assumptions C112_detected_partial.
Print Assumptions C112_south_and_equator.
Print Assumptions C112_both_refused.
Print Assumptions C112_north_and_equator_refuted.
Print Assumptions C113_rows_converted_partial.
Print Assumptions C113_some_row_converts.
Print Assumptions C71_pandas.
Print Assumptions C71_xarray_north_partial.
Print Assumptions C71_xarray_south_all_kept.
Print Assumptions C71_xarray_south_refuted.
Print Assumptions C113_no_match_refuted.
