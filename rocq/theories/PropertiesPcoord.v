(** Properties C143-C146: locations, heights and data with several coordinates. *)
From Coq Require Import String Ascii ZArith QArith List Bool Lia.
From Verif Require Import PyBase TimeModel FilesModel FilesProofs SmagModel CycleModel CycleSpec CycleProofs DriverModel DriverSpec DriverProofs PropertiesCycle PysatModel PysatSpec PysatProofs PysatProofs2 PysatProofs3 PysatProofs4 PropertiesPysat2 PcoordModel PcoordSpec PcoordProofs PcoordProofs2 PcoordProofs3.
Import ListNotations.
Open Scope list_scope.

(** ** C144: latitudes, local times and heights with different coordinates are combined *)
Theorem C144_combined_partial {V} idx n latc ltc coords (lat lt : list V) h hn hs hv dat :
  told_apart n latc ltc -> joined latc ltc coords -> variable latc lat -> variable ltc lt -> simple_height coords h hn hs hv -> NoDup (map fst dat) ->
  exists l new, prepare false idx n latc ltc lat lt h dat = Ok l /\ lc_coords l = map fst coords ++ new /\ incl new (map fst dat) /\ lc_hshape l = lc_shape l /\
    own_values (lc_coords l) (lc_shape l) (lc_lat l) (map fst latc) (map snd latc) lat /\
    own_values (lc_coords l) (lc_shape l) (lc_lt l) (map fst ltc) (map snd ltc) lt /\
    own_values (lc_coords l) (lc_shape l) (lc_h l) hn hs hv.
Proof.
  intros T J A B H D. destruct (locate_apart idx n latc ltc coords lat lt h hn hs hv T J A B H) as (l & E & C & S & W & (P1 & P2 & P3 & P4)).
  destruct (widen_names dat l) as (new & N1 & N2). exists (widen dat l), new. unfold prepare. rewrite E. cbn [bind]. split; [reflexivity|]. rewrite N1, C. split; [reflexivity|]. split; [exact N2|].
  split; [apply widen_hshape; left; exact P1|]. rewrite <- C, <- N1.
  split; [apply (widen_own dat l _ _ _ D W); exact P2|]. split; [apply (widen_own dat l _ _ _ D W); exact P3|]. apply (widen_own dat l _ _ _ D W); assumption.
Qed.
(** As many latitudes as times: the latitudes are taken as those of the times. *)
Theorem C144_same_size_refuted {V} pandas idx c n (lat lt : list V) v i j : c <> idx -> length lat = n -> length lt = n -> (i < n)%nat -> (j < n)%nat ->
  exists l, prepare pandas idx n [(c, n)] [(idx, n)] lat lt (HArr [] [v]) [(idx, n); (c, n)] = Ok l /\ lc_coords l = [idx; c] /\ lc_shape l = [n; n] /\
    value (lc_shape l) (lc_lat l) [i; j] = nth_error lat i.
Proof.
  intros N LA LT Hi Hj. unfold prepare, locate. cbn [map snd]. rewrite (proj2 (nats_eqb _ _) eq_refl). cbn [negb]. rewrite Nat.eqb_refl. cbn [negb orb hshape length bind]. rewrite andb_false_r. cbn [bind].
  eexists. split; [reflexivity|]. unfold widen. cbn [lc_coords length Nat.ltb Nat.leb lc_shape lc_lat lc_lt lc_hshape lc_h hshape hvals filter fst member existsb].
  assert (E1 : str_eqb idx idx = true) by (apply str_eqb_spec; reflexivity). assert (E2 : str_eqb c idx = false) by (destruct (str_eqb c idx) eqn:E; [apply str_eqb_spec in E; contradiction|reflexivity]).
  rewrite E1, E2. cbn [orb negb map fst snd lc_coords lc_shape lc_lat app]. split; [reflexivity|]. split; [reflexivity|].
  rewrite value_at by (repeat constructor; assumption). unfold at_place. cbn [offset]. unfold along. replace (i * size [n] + (j * size [] + 0))%nat with (i * size [n] + j)%nat by (cbn [size fold_right]; lia). apply spread_nth; [lia|]. cbn; lia.
Qed.
(** Heights on a coordinate of their own: heights and locations are not at their places. *)
Theorem C144_height_layout_refuted {V} idx n alt m (lat lt hv : list V) : alt <> idx -> n <> m -> length lat = n -> length lt = n -> length hv = m -> (2 <= n)%nat -> (2 <= m)%nat ->
  exists l, prepare false idx n [(idx, n)] [(idx, n)] lat lt (HVar [(alt, m)] hv) [] = Ok l /\ lc_coords l = [idx; alt] /\ lc_shape l = [n; m] /\
    (forall i j, (i < n)%nat -> (j < m)%nat -> nth_error (lc_lat l) (j * n + i) = nth_error lat i /\ nth_error (lc_h l) (j * n + i) = nth_error hv j) /\
    value (lc_shape l) (lc_lat l) [0; 1]%nat = nth_error lat 1%nat /\ value (lc_shape l) (lc_h l) [0; 1]%nat = nth_error hv 0%nat.
Proof.
  intros N NM LA LT LH Hn Hm. unfold prepare, locate. cbn [map snd]. rewrite (proj2 (nats_eqb _ _) eq_refl). cbn [negb]. rewrite Nat.eqb_refl. cbn [negb orb hshape length bind map snd].
  assert (E : shape_eq [m] [n] = false) by (destruct (shape_eq [m] [n]) eqn:E; [apply nats_eqb in E; congruence|reflexivity]). rewrite E. cbn [negb andb Nat.ltb Nat.leb bind].
  pose proof (C117_unchanged [(idx, n)] lat lt) as CU. cbn [map snd] in CU. rewrite CU. cbn [bind]. cbn [filter fst member existsb map].
  assert (E1 : str_eqb idx idx = true) by (apply str_eqb_spec; reflexivity). assert (E2 : str_eqb alt idx = false) by (destruct (str_eqb alt idx) eqn:X; [apply str_eqb_spec in X; contradiction|reflexivity]).
  rewrite E1. cbn [orb negb map app]. unfold add_height. cbn [hshape map snd]. rewrite E. cbn [filter fst member existsb]. rewrite E2. cbn [orb negb meshgrid map snd fst app].
  assert (L1 : forall x : list V, length x = n -> length (concat (map (fun _ : V => x) hv)) = size [n; m]).
  { intros x Lx. rewrite (concat_length _ n) by (intros; exact Lx). cbn. nia. }
  assert (L2 : forall x : list V, length x = n -> length (concat (map (fun t => map (fun _ : V => t) x) hv)) = size [n; m]).
  { intros x Lx. rewrite (concat_length _ n) by (intros; rewrite map_length; exact Lx). cbn. nia. }
  unfold reshape. rewrite (L1 lat LA), (L2 lat LA), (L1 lt LT), Nat.eqb_refl. cbn [bind]. eexists. split; [reflexivity|]. unfold widen. cbn [lc_coords length Nat.ltb Nat.leb lc_shape lc_lat lc_h].
  split; [reflexivity|]. split; [reflexivity|].
  assert (G : forall i j, (i < n)%nat -> (j < m)%nat -> nth_error (concat (map (fun _ : V => lat) hv)) (j * n + i) = nth_error lat i /\ nth_error (concat (map (fun t => map (fun _ : V => t) lat) hv)) (j * n + i) = nth_error hv j).
  { intros i j Hi Hj. rewrite <- LA. split; [apply nth_repeat_block; lia|apply nth_each_block; lia]. }
  split; [exact G|]. destruct (G 1 0)%nat as [G1 G2]; [lia|lia|]. unfold value. cbn [row_major]. split; [exact G1|exact G2].
Qed.
(** Heights on the time and a coordinate of their own: refused. *)
Theorem C144_height_shape_refuted {V} idx n alt m (lat lt hv : list V) dat : alt <> idx -> length lat = n -> length lt = n -> length hv = (n * m)%nat -> (2 <= n)%nat -> (1 <= m)%nat ->
  prepare false idx n [(idx, n)] [(idx, n)] lat lt (HVar [(idx, n); (alt, m)] hv) dat = Err ValueError.
Proof.
  intros N LA LT LH Hn Hm. unfold prepare, locate. cbn [map snd]. rewrite (proj2 (nats_eqb _ _) eq_refl). cbn [negb]. rewrite Nat.eqb_refl. cbn [negb orb hshape length bind map snd].
  assert (E : shape_eq [n; m] [n] = false) by (destruct (shape_eq [n; m] [n]) eqn:E; [apply nats_eqb in E; congruence|reflexivity]). rewrite E. cbn [negb andb Nat.ltb Nat.leb bind].
  pose proof (C117_unchanged [(idx, n)] lat lt) as CU. cbn [map snd] in CU. rewrite CU. cbn [bind]. cbn [filter fst member existsb map].
  assert (E1 : str_eqb idx idx = true) by (apply str_eqb_spec; reflexivity). assert (E2 : str_eqb alt idx = false) by (destruct (str_eqb alt idx) eqn:X; [apply str_eqb_spec in X; contradiction|reflexivity]).
  rewrite E1. cbn [orb negb map app]. unfold add_height. cbn [hshape map snd]. rewrite E. cbn [filter fst member existsb]. rewrite E1, E2. cbn [orb negb meshgrid map snd fst app].
  unfold reshape at 1. rewrite (concat_length _ n) by (intros; exact LA). rewrite LH. cbn [size fold_right]. rewrite (proj2 (Nat.eqb_neq _ _)) by nia. reflexivity.
Qed.

(** ** C145: locations are repeated along the other coordinates of the data *)
Theorem C145_repeated_partial {V} pandas idx n (lat lt : list V) h hn hs hv dat :
  variable [(idx, n)] lat -> variable [(idx, n)] lt -> simple_height [(idx, n)] h hn hs hv -> NoDup (map fst dat) -> (1 < length dat)%nat ->
  exists l, prepare pandas idx n [(idx, n)] [(idx, n)] lat lt h dat = Ok l /\
    lc_coords l = idx :: map fst (filter (fun c => negb (str_eqb (fst c) idx)) dat) /\ lc_shape l = n :: map snd (filter (fun c => negb (str_eqb (fst c) idx)) dat) /\ lc_hshape l = lc_shape l /\
    own_values (lc_coords l) (lc_shape l) (lc_lat l) [idx] [n] lat /\ own_values (lc_coords l) (lc_shape l) (lc_lt l) [idx] [n] lt /\
    own_values (lc_coords l) (lc_shape l) (lc_h l) hn hs hv.
Proof.
  intros A B H D L. destruct (locate_times pandas idx n lat lt h hn hs hv A B H) as (l & E & C & S & W & O1 & O2 & H1 & H2).
  exists (widen dat l). unfold prepare. rewrite E. cbn [bind]. split; [reflexivity|].
  assert (X : (length (lc_coords l) < length dat)%nat) by (rewrite C; exact L).
  assert (F : filter (fun c : str * nat => negb (member (fst c) [idx])) dat = filter (fun c => negb (str_eqb (fst c) idx)) dat).
  { apply filter_ext. intros c. cbn [member existsb]. rewrite orb_false_r. reflexivity. }
  split. { unfold widen. rewrite (proj2 (Nat.ltb_lt _ _) X). cbn [lc_coords]. rewrite C. unfold str in *. rewrite F. reflexivity. }
  split. { unfold widen. rewrite (proj2 (Nat.ltb_lt _ _) X). cbn [lc_shape]. rewrite C, S. unfold str in *. rewrite F. reflexivity. }
  split; [apply widen_hshape; right; exact X|].
  split; [apply (widen_own dat l _ _ _ D W); exact O1|]. split; [apply (widen_own dat l _ _ _ D W); exact O2|].
  destruct hs as [|x hs].
  - destruct (H2 eq_refl) as (-> & E1 & v & -> & E2). apply widen_single; assumption.
  - destruct H1 as [E1 O3]; [discriminate|]. apply (widen_own dat l _ _ _ D W); assumption.
Qed.
(** Latitudes and local times both on the time and the other coordinate: refused. *)
Theorem C145_two_coordinates_refuted {V W} (normal : Z -> V -> V -> V -> W) b pandas idx c k times (lat lt : list V) h mask max_sdiff mn mx ks :
  c <> idx -> b_records b <> 0%Z -> (hshape h = [] \/ hshape h = [length times; k]) ->
  convert_all normal b pandas idx times [(idx, length times); (c, k)] [(idx, length times); (c, k)] lat lt h [(idx, length times); (c, k)] mask max_sdiff mn mx ks = Err ValueError.
Proof.
  intros N R H. unfold convert_all. rewrite (proj2 (Z.eqb_neq _ _) R). unfold prepare, locate. cbn [map snd]. rewrite (proj2 (nats_eqb _ _) eq_refl). cbn [negb]. rewrite Nat.eqb_refl. cbn [negb orb].
  assert (E : (negb (shape_eq (hshape h) [length times; k]) && (0 <? length (hshape h))%nat)%bool = false).
  { destruct H as [-> | ->]; [apply andb_false_r|]. rewrite (proj2 (nats_eqb _ _) eq_refl). reflexivity. }
  rewrite E. cbn [bind]. unfold widen. cbn [lc_coords length Nat.ltb Nat.leb lc_shape filter fst member existsb]. rewrite str_eqb_refl, (str_eqb_neq _ _ N). cbn. reflexivity.
Qed.

(** ** C146: samples with several coordinates get the boundary of their own time *)
(** The inputs for which everything is put in place: locations on the time only, or combined;
    the time is the first coordinate; [base] are the coordinates of the locations, [hn], [hs]
    and [hv] the coordinates, shape and values of the height. *)
Definition usual {V} (pandas : bool) (idx : name) (n : nat) (latc ltc : list (name * nat)) (lat lt : list V) (h : heights V) (dat base : list (name * nat)) (hn : list name) (hs : list nat) (hv : list V) : Prop :=
  variable latc lat /\ variable ltc lt /\ NoDup (map fst dat) /\ incl (map fst base) (map fst dat) /\ (exists r, base = (idx, n) :: r) /\ simple_height base h hn hs hv /\
  (latc = [(idx, n)] /\ ltc = [(idx, n)] /\ base = [(idx, n)] /\ (hs <> [] \/ 1 < length dat)%nat \/
   pandas = false /\ told_apart n latc ltc /\ joined latc ltc base).
Lemma prepare_usual {V} pandas idx n latc ltc (lat lt : list V) h dat base hn hs hv : usual pandas idx n latc ltc lat lt h dat base hn hs hv ->
  exists l, prepare pandas idx n latc ltc lat lt h dat = Ok l /\ lc_coords l = map fst (output_coords base dat) /\ lc_shape l = map snd (output_coords base dat) /\
    (exists r s, lc_coords l = idx :: r /\ lc_shape l = n :: s) /\ lc_hshape l = lc_shape l /\ length (lc_coords l) = length (lc_shape l) /\
    own_values (lc_coords l) (lc_shape l) (lc_lat l) (map fst latc) (map snd latc) lat /\
    own_values (lc_coords l) (lc_shape l) (lc_lt l) (map fst ltc) (map snd ltc) lt /\
    own_values (lc_coords l) (lc_shape l) (lc_h l) hn hs hv.
Proof.
  intros (A & B & D & I & (r & EB) & H & U).
  assert (G : exists l, locate pandas idx n latc ltc lat lt h = Ok l /\ lc_coords l = map fst base /\ lc_shape l = map snd base /\ whole l /\
    own_values (lc_coords l) (lc_shape l) (lc_lat l) (map fst latc) (map snd latc) lat /\ own_values (lc_coords l) (lc_shape l) (lc_lt l) (map fst ltc) (map snd ltc) lt /\
    (lc_hshape l = lc_shape l /\ own_values (lc_coords l) (lc_shape l) (lc_h l) hn hs hv \/ (length (lc_coords l) < length dat)%nat /\ hn = [] /\ hs = [] /\ lc_hshape l = [] /\ exists v, hv = [v] /\ lc_h l = [v])).
  { destruct U as [(-> & -> & -> & C)|(-> & T & J)].
    - destruct (locate_times pandas idx n lat lt h hn hs hv A B H) as (l & E & C1 & S & W & O1 & O2 & H1 & H2). exists l. split; [exact E|]. split; [exact C1|]. split; [exact S|]. split; [exact W|]. split; [exact O1|]. split; [exact O2|].
      destruct hs as [|x hs].
      + right. destruct (H2 eq_refl) as (-> & E1 & v & -> & E2). destruct C as [C|C]; [congruence|]. rewrite C1. split; [exact C|]. split; [reflexivity|]. split; [reflexivity|]. split; [exact E1|]. exists v. auto.
      + left. apply H1. discriminate.
    - destruct (locate_apart idx n latc ltc _ lat lt h hn hs hv T J A B H) as (l & E & C1 & S & W & (P1 & P2 & P3 & P4)).
      exists l. split; [exact E|]. split; [exact C1|]. split; [exact S|]. split; [exact W|]. split; [exact P2|]. split; [exact P3|]. left. split; assumption. }
  destruct G as (l & E & C & S & W & O1 & O2 & O3). exists (widen dat l). unfold prepare. rewrite E. cbn [bind]. split; [reflexivity|].
  assert (N : NoDup (map fst base)) by (rewrite <- C; apply W). destruct (widen_coords dat l base C S N I) as [WC WS]. split; [exact WC|]. split; [exact WS|].
  split. { rewrite EB in C, S. eapply widen_first; [exact C|exact S]. }
  pose proof (widen_whole dat l D W) as (_ & LL & _).
  split. { apply widen_hshape. destruct O3 as [[O3 _]|[O3 _]]; [left; exact O3|right; exact O3]. }
  split; [exact LL|]. split; [apply (widen_own dat l _ _ _ D W); exact O1|]. split; [apply (widen_own dat l _ _ _ D W); exact O2|].
  destruct O3 as [[E1 O3]|(L & -> & -> & E1 & v & -> & E2)]; [apply (widen_own dat l _ _ _ D W); assumption|]. apply widen_single; assumption.
Qed.
Section Samples.
Context {V W : Type} (normal : Z -> V -> V -> V -> W).
Variables (b : boundary) (pandas : bool) (idx : name) (times : list Z) (latc ltc : list (name * nat)) (lat lt : list V) (h : heights V) (dat : list (name * nat)).
Variables (mask : list nat -> bool) (max_sdiff : Z) (mn mx : option num) (ks : list crit).
Open Scope Z_scope.
Definition sorted_times : Prop := wf_boundary b /\ wf_crits b ks /\ strictly_time_sorted (b_dtime b) /\ time_sorted times /\ 0 <= max_sdiff /\ -1 <= b_rec_ind b < b_records b /\ 0 < b_records b.
Definition usable_record : Z -> Prop := candidate (good_record b mn mx ks) (b_records b) (b_rec_ind b).
(** The record [r] is near the time number [s]; it is the closest usable one. *)
Definition near (r : Z) (s : nat) : Prop := within (b_dtime b) times (max_sdiff * 1000000) r (Z.of_nat s).
Definition closest_record (r : Z) (s : nat) : Prop := closest (b_dtime b) times usable_record (Z.of_nat s) r.
Notation result := (convert_all normal b pandas idx times latc ltc lat lt h dat mask max_sdiff mn mx ks).
Theorem C146_own_boundary_partial base hn hs hv : sorted_times -> usual pandas idx (length times) latc ltc lat lt h dat base hn hs hv ->
  let names := map fst (output_coords base dat) in let shape := map snd (output_coords base dat) in
  (result = Err TypeError /\ forall i ix r, position shape (i :: ix) -> mask (i :: ix) = true -> usable_record r -> ~ near r i) \/
  exists out, result = Ok (Some (names, shape, out)) /\
   forall i ix, position shape (i :: ix) ->
    exists a t c, seen names (i :: ix) (map fst latc) (map snd latc) lat a /\ seen names (i :: ix) (map fst ltc) (map snd ltc) lt t /\ seen names (i :: ix) hn hs hv c /\
    (forall r, mask (i :: ix) = true -> closest_record r i -> near r i -> out (i :: ix) = Some (normal r a t c)) /\
    (mask (i :: ix) = false \/ (forall r, usable_record r -> ~ near r i) -> out (i :: ix) = None).
Proof.
  intros (WB & WC & SB & ST & T0 & RI & RP) U names shape. destruct (prepare_usual _ _ _ _ _ _ _ _ _ _ _ _ _ U) as (l & E & C & S & (r0 & s0 & _ & S1) & HS & LL & (_ & _ & O1) & (_ & _ & O2) & (_ & _ & O3)).
  fold names in C. fold shape in S. rewrite S in S1.
  rewrite (convert_all_rest normal b times mask max_sdiff mn mx ks pandas idx latc ltc lat lt h dat l E LL) by lia.
  assert (FT : forall i ix, position shape (i :: ix) -> (i < length times)%nat) by (intros i ix P; rewrite S1 in P; inversion P; subst; assumption).
  destruct (rest_spec normal b times mask max_sdiff mn mx ks WB WC SB ST T0 RI l RP) as [[X N]|(out & X & Y)]; [rewrite HS, S, S1; discriminate| |].
  - left. split; [exact X|]. intros i ix r P M Ur. rewrite S in N. apply (N (i :: ix) r P); [exact (FT _ _ P)|exact M|exact Ur].
  - right. exists out. rewrite C, S in X. split; [exact X|]. intros i ix P. rewrite C, S in O1, O2, O3. rewrite S in Y.
    destruct (O1 _ P) as (j1 & a & A1 & A2 & A3 & A4). destruct (O2 _ P) as (j2 & t & B1 & B2 & B3 & B4). destruct (O3 _ P) as (j3 & c & C1 & C2 & C3 & C4).
    exists a, t, c. split; [exists j1; auto|]. split; [exists j2; auto|]. split; [exists j3; auto|].
    destruct (Y _ P (FT _ _ P)) as [Y1 Y2]. split; [|exact Y2].
    intros r M Cl Ne. rewrite (Y1 r M Cl Ne). unfold one_place. rewrite HS, S. rewrite <- !value_at by exact P. rewrite A4, B4, C4. reflexivity.
Qed.
Theorem C146_some_sample_converts base hn hs hv i ix r : sorted_times -> usual pandas idx (length times) latc ltc lat lt h dat base hn hs hv ->
  position (map snd (output_coords base dat)) (i :: ix) -> mask (i :: ix) = true -> usable_record r -> near r i ->
  exists out, result = Ok (Some (map fst (output_coords base dat), map snd (output_coords base dat), out)).
Proof.
  intros SI U P M Ur Ne. destruct (C146_own_boundary_partial base hn hs hv SI U) as [[_ X]|(out & E & _)]; [|exists out; exact E]. exfalso. exact (X i ix r P M Ur Ne).
Qed.

(** ** C143: one height is used for every sample *)
Theorem C143_one_height_partial base v : sorted_times -> (h = HArr [] [v] \/ h = HVar [] [v]) -> variable latc lat -> variable ltc lt -> NoDup (map fst dat) -> incl (map fst base) (map fst dat) ->
  (exists r, base = (idx, length times) :: r) ->
  (latc = [(idx, length times)] /\ ltc = [(idx, length times)] /\ base = [(idx, length times)] /\ (1 < length dat)%nat \/ pandas = false /\ told_apart (length times) latc ltc /\ joined latc ltc base) ->
  let names := map fst (output_coords base dat) in let shape := map snd (output_coords base dat) in
  (result = Err TypeError /\ forall i ix r, position shape (i :: ix) -> mask (i :: ix) = true -> usable_record r -> ~ near r i) \/
  exists out, result = Ok (Some (names, shape, out)) /\
   forall i ix r, position shape (i :: ix) -> mask (i :: ix) = true -> closest_record r i -> near r i ->
   exists a t, seen names (i :: ix) (map fst latc) (map snd latc) lat a /\ seen names (i :: ix) (map fst ltc) (map snd ltc) lt t /\ out (i :: ix) = Some (normal r a t v).
Proof.
  intros SI H A B D I EB U names shape. assert (UU : usual pandas idx (length times) latc ltc lat lt h dat base [] [] [v]).
  { split; [exact A|]. split; [exact B|]. split; [exact D|]. split; [exact I|]. split; [exact EB|]. split; [left; exists v; auto|]. destruct U as [(-> & -> & L)|U]; [left; tauto|right; exact U]. }
  destruct (C146_own_boundary_partial base [] [] [v] SI UU) as [X|(out & E & O)]; [left; exact X|]. right. exists out. split; [exact E|].
  intros i ix r P M Cl Ne. destruct (O i ix P) as (a & t & c & Sa & St & (jx & J1 & _ & J3) & Y & _). inversion J1; subst. injection J3 as <-. exists a, t. split; [exact Sa|]. split; [exact St|]. apply Y; assumption.
Qed.
(** One height for locations and data on the time only: refused. *)
Theorem C143_times_only_refuted v i r : sorted_times -> (h = HArr [] [v] \/ h = HVar [] [v]) -> latc = [(idx, length times)] -> ltc = [(idx, length times)] -> variable latc lat -> variable ltc lt -> (length dat <= 1)%nat ->
  (i < length times)%nat -> mask [i] = true -> closest_record r i -> near r i -> result = Err IndexError.
Proof.
  intros (WB & WC & SB & ST & T0 & RI & RP) H EA ET A B L Li M Cl Ne. rewrite EA in A. rewrite ET in B.
  destruct (locate_times pandas idx (length times) lat lt h [] [] [v] A B) as (l & E & C & S & W1 & O1 & O2 & H1 & H2); [left; exists v; auto|].
  destruct (H2 eq_refl) as (_ & E1 & x & _ & E2).
  assert (EW : widen dat l = l). { unfold widen. rewrite C. destruct dat as [|d [|]]; try reflexivity. cbn in L. lia. }
  assert (EP : prepare pandas idx (length times) latc ltc lat lt h dat = Ok l) by (unfold prepare; rewrite EA, ET, E; cbn [bind]; rewrite EW; reflexivity).
  rewrite (convert_all_rest normal b times mask max_sdiff mn mx ks pandas idx latc ltc lat lt h dat l EP) by (rewrite ?C, ?S; try reflexivity; lia).
  apply (rest_single normal b times mask max_sdiff mn mx ks WB WC SB ST T0 RI l [i] r RP E1); try assumption; [rewrite S; repeat constructor; exact Li|apply Cl].
Qed.
End Samples.
Open Scope Z_scope.
(** The same for a pandas instrument. *)
Theorem C143_pandas_refuted {V} (conv : Z -> Z -> V) b rows max_sdiff mn mx ks hd s t lat vs r : wf_boundary b -> wf_crits b ks -> strictly_time_sorted (b_dtime b) -> time_sorted (map fst rows) -> 0 <= max_sdiff -> -1 <= b_rec_ind b < b_records b -> 0 < b_records b ->
  nth_error rows s = Some (t, (lat, vs)) -> on hd lat -> some_value vs -> closest_record b (map fst rows) mn mx ks r s -> near b (map fst rows) max_sdiff r s ->
  pandas_output conv true b (sign_of hd) rows max_sdiff mn mx ks = Err IndexError.
Proof.
  intros WB WC SB ST T0 RI RP E O Sv Cl Ne. unfold pandas_output. set (keep := map (fun r => pandas_keep (sign_of hd) (snd r)) rows).
  assert (K : nth_error keep s = Some true). { unfold keep. rewrite nth_error_map, E. cbn [option_map snd]. f_equal. apply pandas_keep_spec. split; assumption. }
  destruct (convert_spec conv b (map fst rows) keep max_sdiff mn mx ks WB WC SB ST T0 RI) as [[X N]|(out & X & L & A)]; [unfold keep; rewrite !map_length; reflexivity|exact RP| |].
  - exfalso. exact (N s r K (proj1 Cl) Ne).
  - unfold convert in *. destruct (b_records b =? 0) eqn:Z0; [apply Z.eqb_eq in Z0; lia|]. cbn [andb] in X |- *.
    destruct (vort_pairs b _ max_sdiff mn mx ks) as [p|e]; cbn [bind] in X |- *; [|discriminate X]. injection X as X.
    destruct p as [|x p]; [|reflexivity]. exfalso. cbn [fill] in X.
    assert (Ls : (s < length (map fst rows))%nat) by (rewrite map_length; apply nth_error_Some; congruence).
    destruct (A s Ls) as [A1 _]. specialize (A1 r K Cl Ne). rewrite <- X, nth_error_repeat in A1 by exact Ls. discriminate A1.
Qed.

(** Cases: three times and two latitudes; three times and data with a second coordinate. *)
Definition nm (s : string) : name := list_ascii_of_string s.
Definition ex_times : list Z := [10 * usec; 200 * usec; 400 * usec].
Definition ex_mask (ix : list nat) : bool := negb (nth 1 ix 0%nat =? 1)%nat || (nth 0 ix 0%nat =? 1)%nat.
Definition shown {W} (r : res (option (list name * list nat * (list nat -> option W)))) : res (option (list name * list nat * list (option W))) :=
  match r with Ok (Some (a, s, f)) => Ok (Some (a, s, map f (indices s))) | Ok None => Ok None | Err e => Err e end.
Definition ex_usual (h : heights Z) := convert_all (fun r a t c => [r; a; t; c]) (ex_b (-1)) false (nm "time") ex_times [(nm "lat", 2%nat)] [(nm "time", 3%nat)] [70; 80] [1; 2; 3] h [(nm "time", 3%nat); (nm "lat", 2%nat)] ex_mask 60 None None [].
Example C146_case : shown (ex_usual (HArr [3; 2]%nat [10; 20; 30; 40; 50; 60])) = Ok (Some ([nm "time"; nm "lat"], [3; 2]%nat, [Some [0; 70; 1; 10]; None; Some [4; 70; 2; 30]; Some [4; 80; 2; 40]; None; None])) /\
  usual false (nm "time") 3 [(nm "lat", 2%nat)] [(nm "time", 3%nat)] [70; 80] [1; 2; 3] (HArr [3; 2]%nat [10; 20; 30; 40; 50; 60]) [(nm "time", 3%nat); (nm "lat", 2%nat)] [(nm "time", 3%nat); (nm "lat", 2%nat)] [nm "time"; nm "lat"] [3; 2]%nat [10; 20; 30; 40; 50; 60] /\
  sorted_times (ex_b (-1)) ex_times 60 [].
Proof.
  split; [vm_compute; reflexivity|]. split.
  - assert (N : forall a b : name, a <> b -> NoDup [a; b]) by (intros a b X; constructor; [intros [->|[]]; contradiction|constructor; [intros []|constructor]]).
    split; [split; [constructor; [intros []|constructor]|reflexivity]|]. split; [split; [constructor; [intros []|constructor]|reflexivity]|].
    split; [apply N; discriminate|]. split; [apply incl_refl|]. split; [eexists; reflexivity|]. split; [right; split; [right; reflexivity|repeat split]|].
    right. split; [reflexivity|]. split; [left; discriminate|]. left. split; [|reflexivity]. intros c [<-|[]] [X|[]]. discriminate X.
  - split; [apply ex_b_wf|]. split; [intros k []|]. split; [apply ex_b_sorted|]. split.
    + intros i j A B. assert (Hj : j < 3) by exact B. assert (E : (i = 0 \/ i = 1 \/ i = 2) /\ (j = 0 \/ j = 1 \/ j = 2)) by lia.
      destruct E as [[->|[->| ->]] [->|[->| ->]]]; try lia; vm_compute; discriminate.
    + split; [lia|]. split; [split; vm_compute; [discriminate|reflexivity]|reflexivity].
Qed.
Example C143_case : shown (ex_usual (HArr [] [350])) = Ok (Some ([nm "time"; nm "lat"], [3; 2]%nat, [Some [0; 70; 1; 350]; None; Some [4; 70; 2; 350]; Some [4; 80; 2; 350]; None; None])) /\
  convert_all (fun r a t c => [r; a; t; c]) (ex_b (-1)) true (nm "time") ex_times [(nm "time", 3%nat)] [(nm "time", 3%nat)] [70; 75; 80] [1; 2; 3] (HArr [] [350]) [(nm "time", 3%nat)] (fun _ => true) 60 None None [] = Err IndexError.
Proof. split; vm_compute; reflexivity. Qed.
Example C144_case : (l <- prepare false (nm "time") 3 [(nm "lat", 2%nat)] [(nm "time", 3%nat)] [70; 80] [1; 2; 3] (HArr [3; 2]%nat [10; 20; 30; 40; 50; 60]) [(nm "time", 3%nat); (nm "lat", 2%nat); (nm "mode", 2%nat)] ;; Ok (lc_coords l, lc_shape l, lc_lat l, lc_lt l, lc_h l)) =
    Ok ([nm "time"; nm "lat"; nm "mode"], [3; 2; 2]%nat, [70; 70; 80; 80; 70; 70; 80; 80; 70; 70; 80; 80], [1; 1; 1; 1; 2; 2; 2; 2; 3; 3; 3; 3], [10; 10; 20; 20; 30; 30; 40; 40; 50; 50; 60; 60]) /\
  (l <- prepare false (nm "time") 2 [(nm "time", 2%nat)] [(nm "time", 2%nat)] [70; 80] [1; 2] (HVar [(nm "alt", 3%nat)] [100; 200; 300]) [] ;; Ok (lc_lat l, lc_h l)) = Ok ([70; 80; 70; 80; 70; 80], [100; 100; 200; 200; 300; 300]).
Proof. split; vm_compute; reflexivity. Qed.
Example C145_case : shown (convert_all (fun r a t c => [r; a; t; c]) (ex_b (-1)) false (nm "time") ex_times [(nm "time", 3%nat)] [(nm "time", 3%nat)] [70; 75; 80] [1; 2; 3] (HVar [(nm "time", 3%nat)] [350; 400; 450]) [(nm "time", 3%nat); (nm "beam", 2%nat)] ex_mask 60 None None []) =
  Ok (Some ([nm "time"; nm "beam"], [3; 2]%nat, [Some [0; 70; 1; 350]; None; Some [4; 75; 2; 400]; Some [4; 75; 2; 400]; None; None])).
Proof. vm_compute. reflexivity. Qed.

(** ** C147: samples and output have their coordinates in the same order *)
Lemma unify_extra acc vars : (forall v, In v vars -> incl (map fst v) (map fst acc)) -> fold_left (fun acc v => acc ++ filter (fun c : str * nat => negb (member (fst c) (map fst acc))) v) vars acc = acc.
Proof.
  induction vars as [|v vars IH]; intros H; [reflexivity|]. cbn [fold_left]. rewrite filter_none; [rewrite app_nil_r; apply IH; intros w I; apply H; right; exact I|].
  intros c I. apply negb_false_iff, member_spec. apply (H v); [left; reflexivity|]. apply in_map. exact I.
Qed.
Lemma unify_two a l : unify [a; l] = a ++ filter (fun c => negb (member (fst c) (map fst a))) l.
Proof. unfold unify. cbn [fold_left app map]. rewrite filter_all; [reflexivity|]. intros c _. reflexivity. Qed.
Lemma unify_cons a vars : (forall v, In v vars -> incl (map fst v) (map fst a)) -> unify (a :: vars) = a.
Proof. intros H. unfold unify. cbn [fold_left app map]. rewrite filter_all by reflexivity. apply unify_extra. exact H. Qed.
Lemma unify_incl a l : incl (map fst (unify [a; l])) (map fst a ++ map fst l).
Proof.
  rewrite unify_two, map_app. intros x I. apply in_app_or in I. apply in_or_app. destruct I as [I|I]; [left; exact I|right].
  apply in_map_iff in I. destruct I as (y & <- & I). apply in_map. apply filter_In in I. apply I.
Qed.
(** Latitudes that are a coordinate of the instrument, local times that are not, and data
    with the coordinates of the locations. *)
Theorem C147_same_order_partial latc ltc base vars : joined latc ltc base -> (forall v, In v vars -> incl (map fst v) (map fst base)) ->
  map fst (sample_coords false true latc ltc vars) = map fst base.
Proof.
  intros J H. unfold sample_coords. cbn [app map].
  assert (E : map fst (unify [ltc; latc]) = map fst base) by (rewrite unify_two, map_app; apply joined_names; exact J).
  rewrite unify_cons; [exact E|]. intros v I. apply in_map_iff in I. destruct I as (w & <- & I). unfold str in *. rewrite E. intros x X. apply unify_incl in X. apply in_app_or in X.
  destruct X as [X|X]; [apply (H w I x X)|]. destruct J as [[_ ->]|[-> ->]]; [rewrite map_app; apply in_or_app; right; exact X|exact X].
Qed.
(** Locations on the time only, and data with more coordinates. *)
Theorem C147_same_order_times lat_data lt_data idx n v vars : (lat_data = true \/ lt_data = true) -> (forall w, In w vars -> incl (map fst w) (idx :: map fst v)) ->
  map fst (sample_coords lat_data lt_data [(idx, n)] [(idx, n)] (v :: vars)) = map fst (output_coords [(idx, n)] v).
Proof.
  intros D H. assert (E1 : unify [[(idx, n)]; [(idx, n)]] = [(idx, n)]) by (apply unify_cons; intros w [<-|[]]; apply incl_refl).
  set (f := fun c => unify [c; [(idx, n)]]).
  assert (IX : forall c x, In x (map fst (f c)) -> In x (map fst c) \/ x = idx). { intros c x I. apply unify_incl in I. apply in_app_or in I. destruct I as [I|[I|[]]]; [left; exact I|right; symmetry; exact I]. }
  assert (E2 : filter (fun c : str * nat => negb (member (fst c) [idx])) (f v) = filter (fun c : name * nat => if in_dec name_dec (fst c) (map fst [(idx, n)]) then false else true) v).
  { unfold f. rewrite unify_two, filter_app.
    assert (EQ : forall c : name * nat, negb (member (fst c) [idx]) = (if in_dec name_dec (fst c) (map fst [(idx, n)]) then false else true)).
    { intros c. cbn [map fst]. destruct (in_dec name_dec (fst c) [idx]) as [J|J]; [apply negb_false_iff, member_spec, J|]. apply negb_true_iff. destruct (member (fst c) [idx]) eqn:M; [apply member_spec in M; contradiction|reflexivity]. }
    rewrite (filter_ext _ _ EQ). rewrite (filter_none _ (filter _ [(idx, n)])); [apply app_nil_r|]. intros c I. apply filter_In in I. destruct I as [[<-|[]] _]. rewrite EQ. cbn [map fst].
    destruct (in_dec name_dec idx [idx]) as [J|J]; [reflexivity|]. exfalso. apply J. left. reflexivity. }
  assert (G : forall pre, (forall c, In c pre -> c = [(idx, n)]) -> pre <> [] -> map fst (unify (map f (pre ++ v :: vars))) = map fst (output_coords [(idx, n)] v)).
  { intros pre P NE. unfold unify. rewrite map_app, fold_left_app.
    assert (EP : fold_left (fun acc v0 => acc ++ filter (fun c : str * nat => negb (member (fst c) (map fst acc))) v0) (map f pre) [] = [(idx, n)]).
    { destruct pre as [|c pre]; [congruence|]. cbn [map fold_left app]. rewrite (P c) by (left; reflexivity). change (f [(idx, n)]) with (unify [[(idx, n)]; [(idx, n)]]). rewrite E1. cbn [map filter fst member existsb negb].
      rewrite unify_extra; [reflexivity|]. intros w I. apply in_map_iff in I. destruct I as (z & <- & I). rewrite (P z) by (right; exact I). change (f [(idx, n)]) with (unify [[(idx, n)]; [(idx, n)]]). rewrite E1. apply incl_refl. }
    rewrite EP. cbn [map fold_left fst]. rewrite E2. change ([(idx, n)] ++ filter (fun c : name * nat => if in_dec name_dec (fst c) (map fst [(idx, n)]) then false else true) v) with (output_coords [(idx, n)] v).
    rewrite unify_extra; [reflexivity|]. intros w I. apply in_map_iff in I. destruct I as (z & <- & I). intros x X. unfold output_coords. rewrite map_app. cbn [map fst app].
    assert (Y : x = idx \/ In x (map fst v)). { destruct (IX z x X) as [X1| ->]; [|left; reflexivity]. destruct (H z I x X1) as [<-|X2]; [left; reflexivity|right; exact X2]. }
    destruct (name_dec x idx) as [->|NX]; [left; reflexivity|]. right. destruct Y as [Y|Y]; [contradiction|]. apply in_map_iff in Y. destruct Y as (y & <- & Y). apply in_map. apply filter_In. split; [exact Y|].
    match goal with |- (if ?d then _ else _) = _ => destruct d as [[J|[]]|J] end; [exfalso; apply NX; symmetry; exact J|reflexivity]. }
  unfold sample_coords. fold f. rewrite app_assoc. apply G.
  - intros c I. apply in_app_or in I. destruct lat_data, lt_data; destruct I as [I|I]; try (destruct I as [<-|[]]; reflexivity); destruct I.
  - destruct D as [-> | ->]; [discriminate|]. destruct lat_data; discriminate.
Qed.
(** Latitudes that are a data variable on a coordinate of their own: the first coordinate of
    the samples is that one, and not the time. *)
Theorem C147_latitude_variable_refuted {V} idx n c k (lat lt : list V) h dat lt_data vars l : c <> idx -> k <> n -> prepare false idx n [(c, k)] [(idx, n)] lat lt h dat = Ok l ->
  hd_error (map fst (sample_coords true lt_data [(c, k)] [(idx, n)] vars)) = Some c /\ hd_error (lc_coords l) = Some idx.
Proof.
  intros N NK E. split.
  - unfold sample_coords. cbn [app map]. assert (E1 : unify [[(c, k)]; [(c, k)]] = [(c, k)]) by (apply unify_cons; intros w [<-|[]]; apply incl_refl). rewrite E1.
    unfold unify at 1. cbn [fold_left app map filter fst member existsb negb]. generalize (map (fun c0 => unify [c0; [(c, k)]]) ((if lt_data then [[(idx, n)]] else []) ++ vars)). intros ws.
    assert (G : forall ws acc, hd_error (map fst acc) = Some c -> hd_error (map fst (fold_left (fun acc v => acc ++ filter (fun c : str * nat => negb (member (fst c) (map fst acc))) v) ws acc)) = Some c).
    { clear. induction ws as [|w ws IH]; intros acc H; [exact H|]. cbn [fold_left]. apply IH. destruct acc as [|a acc]; [discriminate H|]. exact H. }
    apply G. reflexivity.
  - unfold prepare in E. destruct (locate false idx n [(c, k)] [(idx, n)] lat lt h) as [l'|] eqn:EL; cbn [bind] in E; [|discriminate E]. injection E as <-.
    destruct (widen_names dat l') as (new & -> & _). unfold locate in EL. cbn [map snd] in EL.
    assert (NE : shape_eq [k] [n] = false) by (destruct (shape_eq [k] [n]) eqn:X; [apply nats_eqb in X; congruence|reflexivity]). rewrite NE in EL. cbn [negb bind] in EL.
    destruct (combine_locations _ _ lat lt) as [[[s a] b]|] eqn:EC; cbn [bind] in EL; [|discriminate EL]. cbn [map fst app] in EL.
    unfold add_height in EL. destruct (hshape h); [injection EL as <-; reflexivity|]. destruct (shape_eq _ s); [injection EL as <-; reflexivity|].
    destruct h as [hc hv|hs hv].
    + destruct (filter _ hc).
      * destruct (reshape hv s); cbn [bind] in EL; [injection EL as <-; reflexivity|discriminate EL].
      * cbn [meshgrid] in EL. repeat (match type of EL with context [reshape ?x ?y] => destruct (reshape x y); cbn [bind] in EL; [|discriminate EL] end). injection EL as <-. reflexivity.
    + destruct (length hs =? length s)%nat; [|discriminate EL]. destruct (reshape hv s); cbn [bind] in EL; [injection EL as <-; reflexivity|discriminate EL].
Qed.
Example C147_case : map fst (sample_coords false true [(nm "lat", 2%nat)] [(nm "time", 3%nat); (nm "lon", 4%nat)] [[(nm "time", 3%nat); (nm "lat", 2%nat); (nm "lon", 4%nat)]]) = [nm "time"; nm "lon"; nm "lat"] /\
  map fst (sample_coords true true [(nm "beam", 2%nat)] [(nm "time", 3%nat)] [[(nm "time", 3%nat); (nm "beam", 2%nat)]]) = [nm "beam"; nm "time"].
Proof. split; vm_compute; reflexivity. Qed.

Print Assumptions C143_one_height_partial.
Print Assumptions C143_times_only_refuted.
Print Assumptions C143_pandas_refuted.
Print Assumptions C144_combined_partial.
Print Assumptions C144_same_size_refuted.
Print Assumptions C144_height_layout_refuted.
Print Assumptions C144_height_shape_refuted.
Print Assumptions C145_repeated_partial.
Print Assumptions C145_two_coordinates_refuted.
Print Assumptions C146_own_boundary_partial.
Print Assumptions C146_some_sample_converts.
Print Assumptions C147_same_order_partial.
Print Assumptions C147_same_order_times.
Print Assumptions C147_latitude_variable_refuted.
