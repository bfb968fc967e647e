(** Lemmas about PcoordModel: combination and repetition of locations and heights. *)
From Coq Require Import String Ascii ZArith QArith List Bool Lia.
From Verif Require Import PyBase TimeModel FilesModel FilesProofs SmagModel PysatModel PysatSpec PysatProofs PysatProofs3 PysatProofs4 PropertiesPysat2 PcoordModel PcoordSpec PcoordProofs.
Import ListNotations.
Open Scope list_scope.

(** Everything is in place. *)
Definition well_placed {V} (l : located V) (latc ltc : list (name * nat)) (lat lt : list V) (hn : list name) (hs : list nat) (hv : list V) : Prop :=
  lc_hshape l = lc_shape l /\
  own_values (lc_coords l) (lc_shape l) (lc_lat l) (map fst latc) (map snd latc) lat /\
  own_values (lc_coords l) (lc_shape l) (lc_lt l) (map fst ltc) (map snd ltc) lt /\
  own_values (lc_coords l) (lc_shape l) (lc_h l) hn hs hv.
Definition whole {V} (l : located V) : Prop :=
  NoDup (lc_coords l) /\ length (lc_coords l) = length (lc_shape l) /\ length (lc_lat l) = size (lc_shape l) /\ length (lc_lt l) = size (lc_shape l) /\
  (lc_hshape l = lc_shape l /\ length (lc_h l) = size (lc_shape l) \/ lc_hshape l = [] /\ exists v, lc_h l = [v]).

Lemma along_same {V} shape new (vals : list V) : along shape new shape vals = flat_map (fun v => repeat v (size new)) vals.
Proof. unfold along. destruct shape; reflexivity. Qed.
Lemma fst_filter (dat : list (str * nat)) names : NoDup (map fst dat) -> NoDup names -> NoDup (names ++ map fst (filter (fun c => negb (member (fst c) names)) dat)).
Proof.
  intros D N. induction names as [|x names IH] using rev_ind.
  - cbn [app]. clear -D. induction dat as [|c dat IH]; [constructor|]. cbn [map] in D. inversion D as [|a b E F]; subst. cbn [filter]. change (negb (member (fst c) [])) with true. cbn [map]. constructor; [|apply IH; exact F].
    intros I. apply E. apply in_map_iff in I. destruct I as (y & Y1 & Y2). apply filter_In in Y2. rewrite <- Y1. apply in_map. apply Y2.
  - clear IH. assert (G : forall names, NoDup names -> NoDup (map fst (filter (fun c => negb (member (fst c) names)) dat)) /\ forall x, In x names -> ~ In x (map fst (filter (fun c => negb (member (fst c) names)) dat))).
    { clear -D. intros names N. split.
      - clear -D. induction dat as [|c dat IH]; [constructor|]. cbn [map] in D. inversion D as [|a b E F]; subst. cbn [filter]. destruct (negb (member (fst c) names)); [|apply IH; exact F]. cbn [map]. constructor; [|apply IH; exact F].
        intros I. apply E. apply in_map_iff in I. destruct I as (y & Y1 & Y2). apply filter_In in Y2. rewrite <- Y1. apply in_map. apply Y2.
      - intros x I J. apply in_map_iff in J. destruct J as (y & <- & J). apply filter_In in J. destruct J as [_ J]. apply negb_true_iff in J. apply member_spec in I. congruence. }
    destruct (G _ N) as [G1 G2]. revert G1 G2. set (f := map fst (filter (fun c => negb (member (fst c) (names ++ [x]))) dat)). intros G1 G2.
    revert N G2. generalize (names ++ [x]). intros l N G2. induction l as [|y l IH]; [exact G1|]. inversion N as [|a b E F]; subst. cbn [app]. constructor.
    + intros I. apply in_app_or in I. destruct I as [I|I]; [contradiction|]. apply (G2 y); [left; reflexivity|exact I].
    + apply IH; [exact F|]. intros z Z. apply G2. right. exact Z.
Qed.
Lemma app_size a b : size (a ++ b) = (size a * size b)%nat.
Proof. apply size_app. Qed.

(** Lines 395-410. *)
Lemma widen_whole {V} dat (l : located V) : NoDup (map fst dat) -> whole l -> whole (widen dat l).
Proof.
  intros D (N & L & LA & LT & LH). unfold widen. destruct (length (lc_coords l) <? length dat)%nat; [|split; [exact N|]; auto].
  set (new := filter _ dat). unfold whole. cbn [lc_coords lc_shape lc_lat lc_lt lc_hshape lc_h].
  split; [apply fst_filter; assumption|]. split; [rewrite !app_length, !map_length; congruence|].
  split; [rewrite along_same, spread_length, app_size; congruence|]. split; [rewrite along_same, spread_length, app_size; congruence|].
  left. split; [reflexivity|]. destruct LH as [[-> LH]|[-> [v ->]]]; [rewrite along_same, spread_length, app_size; congruence|]. cbn [along flat_map]. rewrite app_nil_r. apply repeat_length.
Qed.
Lemma widen_own {V} dat (l : located V) vn vs vv : NoDup (map fst dat) -> whole l ->
  (own_values (lc_coords l) (lc_shape l) (lc_lat l) vn vs vv -> own_values (lc_coords (widen dat l)) (lc_shape (widen dat l)) (lc_lat (widen dat l)) vn vs vv) /\
  (own_values (lc_coords l) (lc_shape l) (lc_lt l) vn vs vv -> own_values (lc_coords (widen dat l)) (lc_shape (widen dat l)) (lc_lt (widen dat l)) vn vs vv) /\
  (lc_hshape l = lc_shape l -> own_values (lc_coords l) (lc_shape l) (lc_h l) vn vs vv -> own_values (lc_coords (widen dat l)) (lc_shape (widen dat l)) (lc_h (widen dat l)) vn vs vv).
Proof.
  intros D (N & L & LA & LT & LH). unfold widen. destruct (length (lc_coords l) <? length dat)%nat; [|auto].
  set (new := filter _ dat). cbn [lc_coords lc_shape lc_lat lc_lt lc_hshape lc_h]. rewrite !along_same.
  assert (N' : NoDup (lc_coords l ++ map fst new)) by (apply fst_filter; assumption).
  assert (LN : length (map fst new) = length (map snd new)) by (rewrite !map_length; reflexivity).
  split; [|split].
  - apply own_after; assumption.
  - apply own_after; assumption.
  - intros HE H. rewrite HE, along_same. apply own_after; try assumption. destruct LH as [[_ LH]|[E [v E2]]]; [exact LH|]. rewrite E2, <- HE, E. reflexivity.
Qed.
Lemma widen_single {V} dat (l : located V) v : NoDup (map fst dat) -> whole l -> lc_hshape l = [] -> lc_h l = [v] -> (length (lc_coords l) < length dat)%nat ->
  own_values (lc_coords (widen dat l)) (lc_shape (widen dat l)) (lc_h (widen dat l)) [] [] [v].
Proof.
  intros D W E E2 C. pose proof (widen_whole dat l D W) as (_ & L & _). revert L. unfold widen. destruct (Nat.ltb_spec (length (lc_coords l)) (length dat)) as [_|]; [|lia].
  cbn [lc_coords lc_shape lc_lat lc_lt lc_hshape lc_h]. intros L. rewrite E, E2. cbn [along flat_map]. rewrite app_nil_r. apply own_single. exact L.
Qed.
Lemma widen_hshape {V} dat (l : located V) : lc_hshape l = lc_shape l \/ (length (lc_coords l) < length dat)%nat -> lc_hshape (widen dat l) = lc_shape (widen dat l).
Proof. unfold widen. destruct (Nat.ltb_spec (length (lc_coords l)) (length dat)) as [|G]; [reflexivity|]. intros [E|E]; [exact E|lia]. Qed.
Lemma widen_names {V} dat (l : located V) : exists new, lc_coords (widen dat l) = lc_coords l ++ new /\ incl new (map fst dat).
Proof.
  unfold widen. destruct (length (lc_coords l) <? length dat)%nat; [|exists []; split; [symmetry; apply app_nil_r|intros x []]].
  eexists. split; [reflexivity|]. intros x I. apply in_map_iff in I. destruct I as (y & <- & I). apply in_map. apply filter_In in I. apply I.
Qed.

(** Lines 340-393. *)
Lemma nodup_join {A} (a b : list A) : NoDup a -> NoDup b -> (forall c, In c b -> ~ In c a) -> NoDup (a ++ b).
Proof.
  intros A1 B D. induction A1 as [|x a N A1 IH]; [exact B|]. cbn [app]. constructor.
  - intros I. apply in_app_or in I. destruct I as [I|I]; [contradiction|]. apply (D x I). left. reflexivity.
  - apply IH. intros c C I. apply (D c C). right. exact I.
Qed.
Lemma joined_names latc ltc coords : joined latc ltc coords -> map fst ltc ++ map fst (filter (fun c => negb (member (fst c) (map fst ltc))) latc) = map fst coords.
Proof.
  intros [[D ->]|[-> ->]].
  - rewrite filter_all, map_app; [reflexivity|]. intros c I. apply negb_true_iff. destruct (member (fst c) (map fst ltc)) eqn:M; [|reflexivity]. apply member_spec in M. exfalso. apply (D (fst c)); [apply in_map; exact I|exact M].
  - rewrite filter_none; [apply app_nil_r|]. intros c I. apply negb_false_iff, member_spec, in_map, I.
Qed.
Lemma joined_nodup latc ltc coords : joined latc ltc coords -> NoDup (map fst latc) -> NoDup (map fst ltc) -> NoDup (map fst coords).
Proof. intros [[D ->]|[-> ->]] A B; [|exact B]. rewrite map_app. apply nodup_join; assumption. Qed.
Lemma combine_own {V} latc ltc coords (lat lt : list V) : joined latc ltc coords -> variable latc lat -> variable ltc lt ->
  exists a b, combine_locations latc ltc lat lt = Ok (map snd coords, a, b) /\ length a = size (map snd coords) /\ length b = size (map snd coords) /\
    own_values (map fst coords) (map snd coords) a (map fst latc) (map snd latc) lat /\
    own_values (map fst coords) (map snd coords) b (map fst ltc) (map snd ltc) lt.
Proof.
  intros J [NA LA] [NT LT]. pose proof (joined_nodup _ _ _ J NA NT) as N. pose proof (joined_names _ _ _ J) as JN.
  destruct J as [[D ->]|[-> ->]].
  - assert (F : filter (fun c => negb (member (fst c) (map fst ltc))) latc = latc).
    { apply filter_all. intros c I. apply negb_true_iff. destruct (member (fst c) (map fst ltc)) eqn:M; [|reflexivity]. apply member_spec in M. exfalso. apply (D (fst c)); [apply in_map; exact I|exact M]. }
    unfold combine_locations. unfold str in *. rewrite F. rewrite !map_app in *.
    assert (OA : own_values (map fst ltc ++ map fst latc) (map snd ltc ++ map snd latc) (concat (map (fun _ : V => lat) lt)) (map fst latc) (map snd latc) lat).
    { apply own_before; try assumption; try (rewrite !map_length; reflexivity). apply own_refl; try assumption. rewrite !map_length. reflexivity. }
    assert (OB : own_values (map fst ltc ++ map fst latc) (map snd ltc ++ map snd latc) (concat (map (fun t => map (fun _ : V => t) lat) lt)) (map fst ltc) (map snd ltc) lt).
    { rewrite each_spread. replace (length lat) with (size (map snd latc)) by (symmetry; exact LA). apply own_after; try assumption; try (rewrite !map_length; reflexivity). apply own_refl; try assumption. rewrite !map_length. reflexivity. }
    assert (L1 : length (concat (map (fun _ : V => lat) lt)) = size (map snd ltc ++ map snd latc)).
    { rewrite (concat_length _ (length lat)) by reflexivity. rewrite size_app, LT, LA. reflexivity. }
    assert (L2 : length (concat (map (fun t => map (fun _ : V => t) lat) lt)) = size (map snd ltc ++ map snd latc)).
    { rewrite (concat_length _ (length lat)) by (intros; apply map_length). rewrite size_app, LT, LA. reflexivity. }
    destruct (list_eqb Nat.eqb (map snd latc) _ && _) eqn:E.
    + apply andb_true_iff in E. destruct E as [E1 E2]. apply nats_eqb in E1, E2. apply (f_equal (@length nat)) in E1, E2. rewrite app_length, !map_length in E1, E2.
      assert (Z1 : ltc = []) by (apply length_zero_iff_nil; lia). assert (Z2 : latc = []) by (apply length_zero_iff_nil; lia). subst ltc latc. cbn in LA, LT.
      destruct lat as [|x [|]]; try discriminate LA. destruct lt as [|y [|]]; try discriminate LT. exists [x], [y]. split; [reflexivity|]. split; [reflexivity|]. split; [reflexivity|]. split; [exact OA|exact OB].
    + cbn [meshgrid]. unfold reshape. rewrite L1, L2, Nat.eqb_refl. cbn [bind]. eexists _, _. split; [reflexivity|]. split; [exact L1|]. split; [exact L2|]. split; assumption.
  - exists lat, lt. split; [apply C117_unchanged|]. split; [exact LA|]. split; [exact LT|]. split; apply own_refl; try assumption; rewrite !map_length; reflexivity.
Qed.
Lemma add_simple {V} coords (a b : list V) h hn hs hv : NoDup (map fst coords) -> simple_height coords h hn hs hv ->
  exists v, add_height (map fst coords) (map snd coords) a b h = Ok (mkLoc (map fst coords) (map snd coords) a b (map snd coords) v) /\
    length v = size (map snd coords) /\ own_values (map fst coords) (map snd coords) v hn hs hv.
Proof.
  intros N [(x & E & -> & -> & ->)|(E & -> & -> & L)].
  - exists (repeat x (size (map snd coords))). assert (H : hshape h = [] /\ hvals h = [x]) by (destruct E as [-> | ->]; split; reflexivity). destruct H as [H1 H2].
    unfold add_height. rewrite H1, H2. cbn [flat_map]. rewrite app_nil_r. split; [reflexivity|]. split; [apply repeat_length|]. apply own_single. rewrite !map_length. reflexivity.
  - assert (H : hshape h = map snd coords /\ hvals h = hv) by (destruct E as [-> | ->]; split; reflexivity). destruct H as [H1 H2].
    exists hv. split; [|split; [exact L|apply own_refl; [exact N|rewrite !map_length; reflexivity|exact L]]].
    unfold add_height. rewrite H1, H2, (proj2 (nats_eqb _ _) eq_refl). destruct (map snd coords); [|reflexivity].
    cbn in L. destruct hv as [|x [|]]; try discriminate L. reflexivity.
Qed.
Lemma locate_apart {V} idx n latc ltc coords (lat lt : list V) h hn hs hv :
  told_apart n latc ltc -> joined latc ltc coords -> variable latc lat -> variable ltc lt -> simple_height coords h hn hs hv ->
  exists l, locate false idx n latc ltc lat lt h = Ok l /\ lc_coords l = map fst coords /\ lc_shape l = map snd coords /\ whole l /\ well_placed l latc ltc lat lt hn hs hv.
Proof.
  intros T J A B H. unfold locate.
  assert (E : (if negb (shape_eq (map snd latc) (map snd ltc)) then Ok true else match map snd latc with [] => Err IndexError | m :: _ => Ok (negb (m =? n)%nat || negb (shape_eq (hshape h) (map snd latc)) && (0 <? length (hshape h))%nat) end) = Ok true).
  { destruct (shape_eq (map snd latc) (map snd ltc)) eqn:E; [|reflexivity]. apply nats_eqb in E. destruct T as [T|(m & r & T & M)]; [contradiction|]. cbn [negb]. rewrite T. rewrite (proj2 (Nat.eqb_neq _ _) M). reflexivity. }
  unfold str in *. rewrite E. cbn [bind]. destruct (combine_own _ _ _ _ _ J A B) as (a & b & -> & LA & LB & OA & OB). cbn [bind].
  pose proof (joined_names _ _ _ J) as JN. unfold str in *. rewrite JN. destruct A as [NA LA']. destruct B as [NB LB']. pose proof (joined_nodup _ _ _ J NA NB) as N.
  destruct (add_simple coords a b h hn hs hv N H) as (v & -> & LV & OV). eexists. split; [reflexivity|]. cbn [lc_coords lc_shape].
  split; [reflexivity|]. split; [reflexivity|]. split.
  - unfold whole. cbn [lc_coords lc_shape lc_lat lc_lt lc_hshape lc_h]. split; [exact N|]. split; [rewrite !map_length; reflexivity|]. split; [exact LA|]. split; [exact LB|]. left. split; [reflexivity|exact LV].
  - unfold well_placed. cbn [lc_coords lc_shape lc_lat lc_lt lc_hshape lc_h]. auto.
Qed.
(** Lines 392-393. *)
Lemma locate_times {V} pandas idx n (lat lt : list V) h hn hs hv : variable [(idx, n)] lat -> variable [(idx, n)] lt -> simple_height [(idx, n)] h hn hs hv ->
  exists l, locate pandas idx n [(idx, n)] [(idx, n)] lat lt h = Ok l /\ lc_coords l = [idx] /\ lc_shape l = [n] /\ whole l /\
    own_values (lc_coords l) (lc_shape l) (lc_lat l) [idx] [n] lat /\ own_values (lc_coords l) (lc_shape l) (lc_lt l) [idx] [n] lt /\
    (hs <> [] -> lc_hshape l = lc_shape l /\ own_values (lc_coords l) (lc_shape l) (lc_h l) hn hs hv) /\
    (hs = [] -> hn = [] /\ lc_hshape l = [] /\ exists v, hv = [v] /\ lc_h l = [v]).
Proof.
  intros [NA LA] [NB LB] H. exists (mkLoc [idx] [n] lat lt (hshape h) (hvals h)).
  assert (G : locate pandas idx n [(idx, n)] [(idx, n)] lat lt h = Ok (mkLoc [idx] [n] lat lt (hshape h) (hvals h)) /\
    (hshape h = [n] /\ length (hvals h) = size [n] \/ hshape h = [] /\ exists v, hvals h = [v]) /\
    (hs <> [] -> hshape h = [n] /\ own_values [idx] [n] (hvals h) hn hs hv) /\ (hs = [] -> hn = [] /\ hshape h = [] /\ exists v, hv = [v] /\ hvals h = [v])).
  { unfold locate. cbn [map snd]. rewrite (proj2 (nats_eqb _ _) eq_refl). cbn [negb]. rewrite Nat.eqb_refl. cbn [negb orb bind].
    destruct H as [(x & E & -> & -> & ->)|(E & -> & -> & L)].
    - assert (H : hshape h = [] /\ hvals h = [x]) by (destruct E as [-> | ->]; split; reflexivity). destruct H as [-> ->]. split; [reflexivity|].
      split; [right; split; [reflexivity|exists x; reflexivity]|]. split; [intros X; congruence|]. intros _. split; [reflexivity|]. split; [reflexivity|]. exists x. split; reflexivity.
    - assert (H : hshape h = [n] /\ hvals h = hv) by (destruct E as [-> | ->]; split; reflexivity). destruct H as [-> ->].
      rewrite (proj2 (nats_eqb _ _) eq_refl). split; [reflexivity|]. split; [left; split; [reflexivity|exact L]|]. split; [|discriminate].
      intros _. split; [reflexivity|]. apply own_refl; [exact NA|reflexivity|exact L]. }
  destruct G as (G1 & G2 & G3 & G4). split; [exact G1|]. cbn [lc_coords lc_shape]. split; [reflexivity|]. split; [reflexivity|]. split.
  - unfold whole. cbn [lc_coords lc_shape lc_lat lc_lt lc_hshape lc_h]. split; [exact NA|]. split; [reflexivity|]. split; [exact LA|]. split; [exact LB|]. exact G2.
  - cbn [lc_coords lc_shape lc_lat lc_lt lc_hshape lc_h]. split; [apply own_refl; [exact NA|reflexivity|exact LA]|]. split; [apply own_refl; [exact NB|reflexivity|exact LB]|]. split; assumption.
Qed.
Lemma widen_first {V} dat (l : located V) x c n s : lc_coords l = x :: c -> lc_shape l = n :: s -> exists names shape, lc_coords (widen dat l) = x :: names /\ lc_shape (widen dat l) = n :: shape.
Proof.
  intros C S. unfold widen. destruct (length (lc_coords l) <? length dat)%nat; cbn [lc_coords lc_shape]; rewrite C, S; cbn [app]; eexists _, _; split; reflexivity.
Qed.
Lemma widen_coords {V} dat (l : located V) base : lc_coords l = map fst base -> lc_shape l = map snd base -> NoDup (map fst base) -> incl (map fst base) (map fst dat) ->
  lc_coords (widen dat l) = map fst (output_coords base dat) /\ lc_shape (widen dat l) = map snd (output_coords base dat).
Proof.
  intros C S N I.
  assert (F : filter (fun c : name * nat => negb (member (fst c) (map fst base))) dat = filter (fun c => if in_dec name_dec (fst c) (map fst base) then false else true) dat).
  { apply filter_ext. intros c. destruct (in_dec name_dec (fst c) (map fst base)) as [J|J].
    - apply negb_false_iff, member_spec, J.
    - apply negb_true_iff. destruct (member (fst c) (map fst base)) eqn:M; [apply member_spec in M; contradiction|reflexivity]. }
  unfold widen, output_coords. unfold str in *. rewrite C, S, F, map_length, !map_app.
  destruct (Nat.ltb_spec (length base) (length dat)) as [L|L]; [split; reflexivity|].
  assert (E : filter (fun c : name * nat => if in_dec name_dec (fst c) (map fst base) then false else true) dat = []).
  { apply filter_none. intros c Ic. destruct (in_dec name_dec (fst c) (map fst base)) as [|J]; [reflexivity|]. exfalso. apply J.
    apply (NoDup_length_incl (l := map fst base) (l' := map fst dat)); [exact N|rewrite !map_length; lia|exact I|apply in_map; exact Ic]. }
  rewrite E. cbn [map]. rewrite !app_nil_r. split; assumption.
Qed.
