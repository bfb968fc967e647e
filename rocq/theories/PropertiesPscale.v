(** Properties C154 and C155: scaled values of variables with several coordinates. *)
From Coq Require Import String Ascii ZArith QArith List Bool Lia Permutation.
From Verif Require Import PyBase TimeModel FilesModel FilesProofs SmagModel CycleModel CycleSpec CycleProofs DriverModel DriverSpec DriverProofs PropertiesCycle PysatModel PysatSpec PysatProofs PysatProofs2 PysatProofs3 PysatProofs4 PropertiesPysat2 PcoordModel PcoordSpec PcoordProofs PcoordProofs2 PcoordProofs3 PropertiesPcoord PscaleModel PscaleSpec PscaleProofs.
Import ListNotations.
Open Scope list_scope.

(** ** C154: every sample is scaled from its own values, at its own place, with its own record *)
Lemma nodup_app {A} (l m : list A) : NoDup l -> NoDup m -> (forall x, In x l -> ~ In x m) -> NoDup (l ++ m).
Proof.
  induction l as [|a l IH]; intros L M D; [exact M|]. inversion L; subst. cbn. constructor.
  - intros I. apply in_app_or in I. destruct I as [I|I]; [contradiction|]. exact (D a (or_introl eq_refl) I).
  - apply IH; [assumption|assumption|]. intros x X. apply D. right. exact X.
Qed.
Lemma F2_iff_nth {A B} (R : A -> B -> Prop) l m : Forall2 R l m <-> length l = length m /\ forall k a c, nth_error l k = Some a -> nth_error m k = Some c -> R a c.
Proof.
  split.
  - induction 1 as [|a c l m H F [L IH]]; [split; [reflexivity|]; intros [|k] a c X; discriminate X|]. split; [cbn; congruence|]. intros [|k] a' c' X Y; cbn in X, Y; [congruence|exact (IH k a' c' X Y)].
  - revert m. induction l as [|a l IH]; intros [|c m] [L H]; try discriminate L; constructor; [apply (H 0%nat); reflexivity|]. apply IH. split; [injection L; auto|]. intros k. apply (H (S k)).
Qed.
Lemma output_nodup base dat : NoDup (map fst base) -> NoDup (map fst dat) -> NoDup (map fst (output_coords base dat)).
Proof.
  intros A B. unfold output_coords. rewrite map_app. apply nodup_app; [exact A| |].
  - clear A. induction dat as [|c dat IH]; [constructor|]. cbn [filter map] in *. inversion B; subst. destruct (in_dec _ _ _); [apply IH; assumption|]. cbn [map]. constructor; [|apply IH; assumption].
    intros I. apply H1. apply in_map_iff in I. destruct I as (y & <- & I). apply in_map. apply filter_In in I. apply I.
  - intros x I J. apply in_map_iff in J. destruct J as (y & <- & J). apply filter_In in J. destruct J as [_ J]. destruct (in_dec _ _ _); [discriminate|contradiction].
Qed.
Lemma seen_found {V} names shape mask ix (d : nd V) : NoDup names -> length names = length shape -> position shape ix -> found names shape mask d -> seen_at names ix d (own names d ix).
Proof.
  intros N L P F. assert (I : incl (nd_dims d) names).
  { destruct F as [(k & _ & _ & _ & Q & _)|[[-> _] _]]; [|apply incl_refl]. intros x X. apply (Permutation_in _ Q) in X. rewrite <- (firstn_skipn k names). apply in_or_app. left. exact X. }
  split; [exact I|]. exists (reorder names (nd_dims d) ix). split; [|split; [apply reorder_same_place; assumption|reflexivity]].
  destruct F as [(k & K & LD & _ & Q & S & _)|[[-> ->] _]]; [|rewrite reorder_same; [exact P|exact N|rewrite (position_length _ _ P); symmetry; exact L]].
  unfold position. apply F2_iff_nth. split; [unfold reorder; rewrite map_length; symmetry; exact LD|].
  intros a x y E1 E2. unfold reorder in E1. destruct (nth_error (nd_dims d) a) as [nm|] eqn:E; [|apply nth_error_None in E; assert (a < length (map (fun d0 => nth (nindex d0 names) ix 0%nat) (nd_dims d)))%nat by (apply nth_error_Some; congruence); rewrite map_length in *; lia].
  erewrite map_nth_error in E1 by exact E. injection E1 as <-. assert (B : nth_error names (nindex nm names) = Some nm) by (apply nindex_in, I; eapply nth_error_In; exact E).
  specialize (S a _ nm E B). rewrite (nth_error_nth _ _ 0%nat E2) in S. rewrite S. assert (BL : (nindex nm names < length names)%nat) by (apply nth_error_Some; congruence).
  destruct (nth_error ix (nindex nm names)) as [i|] eqn:EI; [|apply nth_error_None in EI; rewrite (position_length _ _ P) in EI; lia].
  destruct (nth_error shape (nindex nm names)) as [s|] eqn:ES; [|apply nth_error_None in ES; lia].
  rewrite (nth_error_nth _ _ 0%nat EI), (nth_error_nth _ _ 0%nat ES). unfold position in P. apply (proj2 (proj1 (F2_iff_nth _ _ _) P) _ _ _ EI ES).
Qed.
Section Samples.
Context {V W U : Type} (nan : V) (normal : Z -> V -> V -> V -> W) (scale : Z -> W -> list V -> U).
Variables (b : boundary) (lat_data lt_data : bool) (vars : list (list (name * nat))) (datas : list (nd V)) (idx : name) (times : list Z) (latc ltc : list (name * nat)) (lat lt : list V) (h : heights V) (dat : list (name * nat)).
Variables (mask : list nat -> bool) (max_sdiff : Z) (mn mx : option num) (ks : list crit).
Open Scope Z_scope.
Notation result := (scaled_all nan normal scale b lat_data lt_data vars datas idx times latc ltc lat lt h dat mask max_sdiff mn mx ks).
Theorem C154_own_values_partial base hn hs hv : sorted_times b times max_sdiff ks -> usual false idx (length times) latc ltc lat lt h dat base hn hs hv ->
  let names := map fst (output_coords base dat) in let shape := map snd (output_coords base dat) in
  map fst (time_coords lat_data lt_data latc ltc vars) = names -> Forall (fun d => on_first names shape d \/ on_all names shape d /\ boxes shape mask) datas ->
  (result = Err TypeError /\ forall i ix r, position shape (i :: ix) -> mask (i :: ix) = true -> usable_record b mn mx ks r -> ~ near b times max_sdiff r i) \/
  exists out, result = Ok (Some (names, shape, out)) /\
   forall i ix, position shape (i :: ix) ->
    exists a t c vs, seen names (i :: ix) (map fst latc) (map snd latc) lat a /\ seen names (i :: ix) (map fst ltc) (map snd ltc) lt t /\ seen names (i :: ix) hn hs hv c /\
    Forall2 (seen_at names (i :: ix)) datas vs /\
    (forall r, mask (i :: ix) = true -> closest_record b times mn mx ks r i -> near b times max_sdiff r i -> out (i :: ix) = Some (scale r (normal r a t c) vs)) /\
    (mask (i :: ix) = false \/ (forall r, usable_record b mn mx ks r -> ~ near b times max_sdiff r i) -> out (i :: ix) = None).
Proof.
  intros (WB & WC & SB & ST & T0 & RI & RP) Us names shape TC FD. assert (NN : NoDup names).
  { destruct Us as (A & B & D & _ & _ & _ & J). apply output_nodup; [|exact D]. destruct J as [(_ & _ & -> & _)|(_ & _ & [[J ->]|[-> ->]])]; [constructor; [intros []|constructor]| |apply B].
    rewrite map_app. apply nodup_app; [apply B|apply A|]. intros x X Y. exact (J x Y X). }
  destruct (prepare_usual _ _ _ _ _ _ _ _ _ _ _ _ _ Us) as (l & E & C & S & (r0 & s0 & _ & S1) & HS & LL & (_ & _ & O1) & (_ & _ & O2) & (_ & _ & O3)).
  fold names in C. fold shape in S. rewrite S in S1.
  rewrite (scaled_all_rest nan normal scale b times mask max_sdiff mn mx ks lat_data lt_data vars datas idx latc ltc lat lt h dat l E LL) by lia. unfold str in *. rewrite TC, <- C.
  assert (FT : forall ix, position (lc_shape l) ix -> (hd 0%nat ix < length times)%nat) by (intros ix P; rewrite S, S1 in P; inversion P; subst; assumption).
  rewrite <- C in NN. rewrite <- C, <- S in FD.
  destruct (rest_scaled_spec nan normal scale b times mask max_sdiff mn mx ks WB WC SB ST T0 RI l datas RP) as [[X N]|(out & X & Y)]; try assumption; [rewrite HS, S, S1; discriminate| |].
  - left. split; [exact X|]. intros i ix r P M Ur. rewrite S in N. apply (N (i :: ix) r P); [exact M|exact Ur].
  - right. exists out. rewrite C, S in X. rewrite C. split; [exact X|]. intros i ix P. rewrite C, S in O1, O2, O3. rewrite S in Y.
    destruct (O1 _ P) as (j1 & a & A1 & A2 & A3 & A4). destruct (O2 _ P) as (j2 & t & B1 & B2 & B3 & B4). destruct (O3 _ P) as (j3 & c & C1 & C2 & C3 & C4).
    exists a, t, c, (map (fun d => own names d (i :: ix)) datas). split; [exists j1; auto|]. split; [exists j2; auto|]. split; [exists j3; auto|].
    split. { rewrite C, S in FD. clear - FD P NN C LL S. rewrite C in NN. rewrite C, S in LL. induction FD as [|d datas H F IH]; cbn [map]; constructor; [|exact IH]. apply (seen_found names shape mask); assumption. }
    destruct (Y _ P) as [Y1 Y2]. split; [|exact Y2].
    intros r M Cl Ne. rewrite (Y1 r M Cl Ne). unfold scaled_at, one_place. rewrite HS, S, C. rewrite <- !value_at by exact P. rewrite A4, B4, C4. reflexivity.
Qed.
End Samples.
(** With two coordinates the samples used at a time always are a box. *)
Theorem C154_two_coordinates n m mask : boxes [n; m] mask.
Proof.
  intros i. exists (fun k j => match k with O => j = i | S O => mask [i; j] = true | _ => True end). intros ix P. inversion P as [|a ? t ? _ P1]; subst. inversion P1 as [|c ? ? ? _ P2]; subst. inversion P2; subst.
  unfold used_at. cbn [hd]. rewrite andb_true_iff, Nat.eqb_eq. split.
  - intros [M <-] k K. cbn in K. destruct k as [|[|k]]; cbn; [reflexivity|exact M|lia].
  - intros H. pose proof (H 0%nat ltac:(cbn; lia)) as H0. pose proof (H 1%nat ltac:(cbn; lia)) as H1. cbn in H0, H1. subst. auto.
Qed.
(** ** Cases *)
Open Scope Z_scope.
Definition tag (ix : list nat) : Z := fold_left (fun a i => 10 * a + Z.of_nat i + 1) ix 0.
Definition ex_t : name * nat := (nm "time", 3%nat).
Definition ex_l : name * nat := (nm "lat", 2%nat).
Definition ex_a : name * nat := (nm "alt", 2%nat).
Definition ex_var (cs : list (name * nat)) : nd Z := mkNd (map fst cs) (map snd cs) tag.
(** Variables with the coordinates [vars], all of them scaled together. *)
Definition ex_scaled (vars : list (list (name * nat))) (dat : list (name * nat)) (mask : list nat -> bool) : res (option (list name * list nat * (list nat -> option (list Z)))) :=
  scaled_all 0 (fun r a t c => [r; a; t; c]) (fun r w vs => w ++ vs) (ex_b (-1)) false true vars (map ex_var vars) (nm "time") ex_times [ex_l] [ex_t] [70; 80] [1; 2; 3] (HArr [] [350]) dat mask 60 None None [].
Example C154_case : shown (ex_scaled [[ex_t; ex_l]; [ex_t]; [ex_l; ex_t]] [ex_t; ex_l] ex_mask) =
    Ok (Some ([nm "time"; nm "lat"], [3; 2]%nat, [Some [0; 70; 1; 350; 11; 1; 11]; None; Some [4; 70; 2; 350; 21; 2; 12]; Some [4; 80; 2; 350; 22; 2; 22]; None; None])) /\
  sorted_times (ex_b (-1)) ex_times 60 [] /\ usual false (nm "time") 3 [ex_l] [ex_t] [70; 80] [1; 2; 3] (HArr [] [350]) [ex_t; ex_l] [ex_t; ex_l] [] [] [350] /\
  map fst (time_coords false true [ex_l] [ex_t] [[ex_t; ex_l]; [ex_t]; [ex_l; ex_t]]) = map fst (output_coords [ex_t; ex_l] [ex_t; ex_l]) /\
  Forall (fun d => on_first [nm "time"; nm "lat"] [3; 2]%nat d \/ on_all [nm "time"; nm "lat"] [3; 2]%nat d /\ boxes [3; 2]%nat ex_mask) (map ex_var [[ex_t; ex_l]; [ex_t]; [ex_l; ex_t]]).
Proof.
  split; [vm_compute; reflexivity|]. split.
  { destruct C146_case as (_ & _ & H). exact H. }
  split.
  { destruct C146_case as (_ & (A & B & C & D & E & _ & G) & _). split; [exact A|]. split; [exact B|]. split; [exact C|]. split; [exact D|]. split; [exact E|]. split; [left; exists 350; auto|].
    right. destruct G as [(G & _)|G]; [discriminate G|exact G]. }
  split; [vm_compute; reflexivity|].
  constructor; [right; split; [split; reflexivity|apply C154_two_coordinates]|].
  constructor.
  { left. exists 1%nat. split; [cbn; lia|]. split; [reflexivity|]. split; [constructor; [intros []|constructor]|]. split; [apply Permutation_refl|]. split; [|discriminate].
    intros [|[|a]] [|[|k]] d X Y; cbn in X, Y |- *; try reflexivity; try congruence; match goal with Q : nth_error [] ?n = Some _ |- _ => destruct n; discriminate Q end. }
  constructor; [|constructor].
  left. exists 2%nat. split; [cbn; lia|]. split; [reflexivity|]. split; [constructor; [intros [X|[]]; discriminate X|constructor; [intros []|constructor]]|]. split; [apply perm_swap|]. split; [|discriminate].
  intros [|[|a]] [|[|k]] d X Y; cbn in X, Y |- *; try reflexivity; try congruence; match goal with Q : nth_error [] ?n = Some _ |- _ => destruct n; discriminate Q end.
Qed.
(** The locations of the same samples. *)
Definition ex_places (dat : list (name * nat)) (mask : list nat -> bool) : res (option (list name * list nat * (list nat -> option (list Z)))) :=
  convert_all (fun r a t c => [r; a; t; c]) (ex_b (-1)) false (nm "time") ex_times [ex_l] [ex_t] [70; 80] [1; 2; 3] (HArr [] [350]) dat mask 60 None None [].
(** Three coordinates, the samples at a time not a box: all samples are refused, though their
    locations are converted. *)
Theorem C154_not_a_box_refuted : exists mask places, ex_places [ex_t; ex_l; ex_a] mask = Ok (Some (map fst [ex_t; ex_l; ex_a], map snd [ex_t; ex_l; ex_a], places)) /\
  places [0; 1; 1]%nat = Some [0; 80; 1; 350] /\ map fst (time_coords false true [ex_l] [ex_t] [[ex_t; ex_l; ex_a]]) = map fst [ex_t; ex_l; ex_a] /\
  ex_scaled [[ex_t; ex_l; ex_a]] [ex_t; ex_l; ex_a] mask = Err ValueError.
Proof.
  exists (fun ix => (nth 1 ix 0 =? nth 2 ix 0)%nat). eexists. split; [vm_compute; reflexivity|]. split; [vm_compute; reflexivity|]. split; vm_compute; reflexivity.
Qed.
(** A variable on the second coordinate alone, the other variable on both. *)
Theorem C154_second_coordinate_refuted : exists places, ex_places [ex_t; ex_l] (fun _ => true) = Ok (Some (map fst [ex_t; ex_l], map snd [ex_t; ex_l], places)) /\
  places [0; 1]%nat = Some [0; 80; 1; 350] /\ map fst (time_coords false true [ex_l] [ex_t] [[ex_t; ex_l]; [ex_l]]) = map fst [ex_t; ex_l] /\
  ex_scaled [[ex_t; ex_l]; [ex_l]] [ex_t; ex_l] (fun _ => true) = Err ValueError.
Proof. eexists. split; [vm_compute; reflexivity|]. split; [vm_compute; reflexivity|]. split; vm_compute; reflexivity. Qed.

(** ** C155: the values selected at a time have their coordinates in the order of the samples *)
Lemma unify_same a l : incl (map fst l) (map fst a) -> unify [a; l] = a.
Proof. intros I. apply unify_cons. intros v [<-|[]]. exact I. Qed.
Lemma unify_acc_one (vars : list (list (name * nat))) acc c : (forall v, In v vars -> incl (map fst v) (map fst acc ++ [c])) -> ~ In c (map fst acc) -> (forall v, In v vars -> NoDup (map fst v)) ->
  let u := map fst (fold_left (fun acc v => acc ++ filter (fun c : str * nat => negb (member (fst c) (map fst acc))) v) vars acc) in u = map fst acc \/ u = map fst acc ++ [c].
Proof.
  induction vars as [|v vars IH]; intros H N D; [left; reflexivity|]. cbn [fold_left].
  assert (E : filter (fun k : str * nat => negb (member (fst k) (map fst acc))) v = [] \/ exists x, filter (fun k : str * nat => negb (member (fst k) (map fst acc))) v = [x] /\ fst x = c).
  { pose proof (H v (or_introl eq_refl)) as Hv. pose proof (D v (or_introl eq_refl)) as Dv. clear - Hv Dv N. induction v as [|x v IHv]; [left; reflexivity|]. cbn [filter].
    cbn [map] in Hv, Dv. inversion Dv as [|? ? X Dv']; subst. assert (Hv' : incl (map fst v) (map fst acc ++ [c])) by (intros y Y; apply Hv; right; exact Y). specialize (IHv Hv' Dv').
    unfold str in *. destruct (member (fst x) (map fst acc)) eqn:M; cbn [negb]; [exact IHv|]. right. exists x.
    assert (Ex : fst x = c). { assert (I : In (fst x) (map fst acc ++ [c])) by (apply Hv; left; reflexivity). apply in_app_or in I. destruct I as [I|[I|[]]]; [apply member_spec in I; unfold str in *; congruence|symmetry; exact I]. }
    split; [|exact Ex]. f_equal. destruct IHv as [->|(y & Y & Ey)]; [reflexivity|]. exfalso. apply X. rewrite Ex, <- Ey. apply in_map.
    assert (I : In y (filter (fun k : str * nat => negb (member (fst k) (map fst acc))) v)) by (unfold str in *; rewrite Y; left; reflexivity). apply filter_In in I. apply I. }
  unfold str in *. destruct E as [->|(x & -> & Ex)].
  - rewrite app_nil_r. apply IH; [intros w I; apply H; right; exact I|exact N|intros w I; apply D; right; exact I].
  - right. assert (EA : map fst (acc ++ [x]) = map fst acc ++ [c]) by (rewrite map_app; cbn [map]; rewrite Ex; reflexivity).
    rewrite unify_extra; [exact EA|]. intros w I. unfold str in *. rewrite EA. apply H. right. exact I.
Qed.
(** Latitudes that are a coordinate of the instrument, on one coordinate or those of the local
    times; local times that are a variable; data with the coordinates of the locations. *)
Theorem C155_same_order_partial latc ltc base vars : joined latc ltc base -> (length latc = 1%nat \/ latc = ltc) -> (forall v, In v vars -> NoDup (map fst v) /\ incl (map fst v) (map fst base)) ->
  map fst (time_coords false true latc ltc vars) = map fst base /\ map fst (sample_coords false true latc ltc vars) = map fst base.
Proof.
  intros J O H. assert (SC : map fst (sample_coords false true latc ltc vars) = map fst base) by (apply C147_same_order_partial; [exact J|intros v I; apply H; exact I]).
  split; [|exact SC]. unfold time_coords. cbn [app].
  assert (NS : forall a, map fst a = map fst base -> map fst (unify [a; sample_coords false true latc ltc vars]) = map fst base).
  { intros a Ea. rewrite unify_same; [exact Ea|]. unfold str in *. rewrite SC, Ea. apply incl_refl. }
  destruct J as [[D ->]|[-> ->]].
  2:{ apply NS. rewrite unify_cons; [reflexivity|]. intros v I. apply H. exact I. }
  destruct O as [O| ->].
  2:{ destruct ltc as [|c ltc]; [|exfalso; apply (D (fst c)); left; reflexivity]. apply NS. rewrite unify_cons; [reflexivity|]. intros v I. apply H. exact I. }
  destruct latc as [|[c k] [|]]; try discriminate O. assert (NC : ~ In c (map fst ltc)) by (apply D; left; reflexivity).
  destruct (unify_acc_one vars ltc c) as [E|E].
  - intros v I. destruct (H v I) as [_ X]. rewrite map_app in X. exact X.
  - exact NC.
  - intros v I. apply H. exact I.
  - assert (E0 : map fst (unify (ltc :: vars)) = map fst ltc) by (unfold unify; cbn [fold_left app map]; rewrite filter_all by reflexivity; exact E).
    unfold str in *. revert E0. generalize (unify (ltc :: vars)). intros u E0. rewrite unify_two, map_app.
    assert (F : forall l : list (name * nat), map fst (filter (fun c : name * nat => negb (member (fst c) (map fst u))) l) = filter (fun x => negb (member x (map fst u))) (map fst l)).
    { induction l as [|x l IH]; [reflexivity|]. cbn [filter map]. destruct (member (fst x) (map fst u)); cbn [negb map]; [exact IH|]. rewrite IH. reflexivity. }
    unfold str in *. rewrite F, SC, E0. rewrite map_app, filter_app. rewrite filter_none by (intros x I; apply negb_false_iff, member_spec, I). cbn [map fst filter app].
    destruct (member c (map fst ltc)) eqn:M; [apply member_spec in M; contradiction|]. reflexivity.
  - apply NS. unfold unify. cbn [fold_left app map]. rewrite filter_all by reflexivity. unfold str in *. rewrite E, map_app. reflexivity.
Qed.
(** Locations on the time only, and data with more coordinates. *)
Theorem C155_same_order_times lat_data lt_data idx n v vars : (lat_data = true \/ lt_data = true) -> (forall w, In w vars -> incl (map fst w) (idx :: map fst v)) ->
  map fst (time_coords lat_data lt_data [(idx, n)] [(idx, n)] (v :: vars)) = map fst (output_coords [(idx, n)] v).
Proof.
  intros D H. pose proof (C147_same_order_times lat_data lt_data idx n v vars D H) as SC.
  assert (G : forall pre, (forall c, In c pre -> c = [(idx, n)]) -> pre <> [] -> unify (pre ++ v :: vars) = output_coords [(idx, n)] v).
  { intros pre P NE. unfold unify. rewrite fold_left_app.
    assert (EP : fold_left (fun acc v0 => acc ++ filter (fun c : str * nat => negb (member (fst c) (map fst acc))) v0) pre [] = [(idx, n)]).
    { destruct pre as [|c pre]; [congruence|]. cbn [fold_left app]. rewrite (P c) by (left; reflexivity). cbn [map filter fst member existsb negb].
      apply unify_extra. intros w I. rewrite (P w) by (right; exact I). apply incl_refl. }
    rewrite EP. cbn [fold_left].
    assert (EQ : forall c : name * nat, negb (member (fst c) (map fst [(idx, n)])) = (if in_dec name_dec (fst c) (map fst [(idx, n)]) then false else true)).
    { intros c. destruct (in_dec name_dec (fst c) (map fst [(idx, n)])) as [J|J]; [apply negb_false_iff, member_spec, J|]. apply negb_true_iff. destruct (member (fst c) _) eqn:M; [apply member_spec in M; contradiction|reflexivity]. }
    rewrite (filter_ext _ _ EQ). change ([(idx, n)] ++ filter (fun c : name * nat => if in_dec name_dec (fst c) (map fst [(idx, n)]) then false else true) v) with (output_coords [(idx, n)] v).
    apply unify_extra. intros w I x X. unfold output_coords. rewrite map_app. destruct (name_dec x idx) as [->|NX]; [left; reflexivity|]. right.
    destruct (H w I x X) as [Y|Y]; [congruence|]. apply in_map_iff in Y. destruct Y as (y & <- & Y). apply in_map. apply filter_In. split; [exact Y|]. rewrite <- EQ. apply negb_true_iff.
    destruct (member _ _) eqn:M; [|reflexivity]. apply member_spec in M. destruct M as [M|[]]. exfalso. apply NX. symmetry. exact M. }
  unfold time_coords. rewrite app_assoc, G.
  - rewrite unify_same; [reflexivity|]. unfold str in *. rewrite SC. apply incl_refl.
  - intros c I. apply in_app_or in I. destruct lat_data, lt_data; destruct I as [I|I]; try (destruct I as [<-|[]]; reflexivity); destruct I.
  - destruct D as [-> | ->]; [discriminate|]. destruct lat_data; discriminate.
Qed.
(** A variable whose coordinates are not in the order of the output: samples, output and
    locations have one order, the selected values the other, and samples get the values of
    other samples; not so if only one latitude is used. *)
Theorem C155_other_order_refuted : map fst (sample_coords false true [ex_l] [ex_t] [[ex_t; ex_a; ex_l]]) = map fst [ex_t; ex_l; ex_a] /\
  map fst (time_coords false true [ex_l] [ex_t] [[ex_t; ex_a; ex_l]]) = map fst [ex_t; ex_a; ex_l] /\
  exists out, ex_scaled [[ex_t; ex_a; ex_l]] [ex_t; ex_l; ex_a] (fun _ => true) = Ok (Some (map fst [ex_t; ex_l; ex_a], map snd [ex_t; ex_l; ex_a], out)) /\
    seen_at (map fst [ex_t; ex_l; ex_a]) [0; 1; 0]%nat (ex_var [ex_t; ex_a; ex_l]) 112 /\ out [0; 1; 0]%nat = Some [0; 80; 1; 350; 121] /\
    seen_at (map fst [ex_t; ex_l; ex_a]) [0; 0; 1]%nat (ex_var [ex_t; ex_a; ex_l]) 121 /\
    exists out', ex_scaled [[ex_t; ex_a; ex_l]] [ex_t; ex_l; ex_a] (fun ix => (nth 1 ix 0 =? 0)%nat) = Ok (Some (map fst [ex_t; ex_l; ex_a], map snd [ex_t; ex_l; ex_a], out')) /\ out' [0; 0; 1]%nat = Some [0; 70; 1; 350; 121].
Proof.
  split; [vm_compute; reflexivity|]. split; [vm_compute; reflexivity|]. eexists. split; [vm_compute; reflexivity|].
  assert (I : incl (map fst [ex_t; ex_a; ex_l]) (map fst [ex_t; ex_l; ex_a])) by (intros x [<-|[<-|[<-|[]]]]; cbn; auto).
  assert (S : forall i j k, same_place (map fst [ex_t; ex_l; ex_a]) [i; j; k] (map fst [ex_t; ex_a; ex_l]) [i; k; j]).
  { intros i j k. split; [reflexivity|]. intros [|[|[|a]]] [|[|[|c]]] d X Y; cbn in X, Y |- *; try reflexivity; try congruence; match goal with Q : nth_error [] ?n = Some _ |- _ => destruct n; discriminate Q end. }
  split; [|split; [vm_compute; reflexivity|split]].
  - split; [exact I|]. exists [0; 0; 1]%nat. split; [|split; [apply S|reflexivity]]. repeat constructor.
  - split; [exact I|]. exists [0; 1; 0]%nat. split; [|split; [apply S|reflexivity]]. repeat constructor.
  - eexists. split; vm_compute; reflexivity.
Qed.
Example C155_case : joined [ex_l] [ex_t] [ex_t; ex_l] /\ map fst (time_coords false true [ex_l] [ex_t] [[ex_l; ex_t]; [ex_t]]) = map fst [ex_t; ex_l] /\
  map fst (time_coords true true [ex_t] [ex_t] [[ex_t; ex_l; ex_a]; [ex_a]]) = map fst [ex_t; ex_l; ex_a].
Proof. split; [|split; vm_compute; reflexivity]. left. split; [|reflexivity]. intros c [<-|[]] [X|[]]. discriminate X. Qed.

Print Assumptions C154_own_values_partial.
Print Assumptions C154_two_coordinates.
Print Assumptions C154_not_a_box_refuted.
Print Assumptions C154_second_coordinate_refuted.
Print Assumptions C155_same_order_partial.
Print Assumptions C155_same_order_times.
Print Assumptions C155_other_order_refuted.
