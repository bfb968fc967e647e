(** C130 and C132: geographic vectors become magnetic. *)
From Coq Require Import Reals ZArith List Bool String Ascii Lia Lra.
From Verif Require Import PyBase PyString RangeModel RangeSpec RangeProofs CoordModel CoordSpec DualCoordModel VectorModel VectorSpec VectorProofs VectorProofs2
  ScalingModel ScalingProofs ScalingSpec PropertiesRange PropertiesScaling2 LocModel LocSpec LocProofs LocProofs2 PropertiesLoc.
Import ListNotations.
Open Scope R_scope.

Definition number (x : fl) : Prop := x <> None.
Definition number_site (p : site) : Prop := number (pl_lat p) /\ number (pl_lt p) /\ number (pl_h p).
Definition number_vec (v : fl * fl * fl) : Prop := let '(n, e, z) := v in number n /\ number e /\ number z.

Lemma local_unique t lon h h' : local_time_at t lon h -> local_time_at t lon h' -> h = h'.
Proof.
  unfold local_time_at. destruct lon as [g|], h as [a|], h' as [b|]; try contradiction; [|reflexivity].
  intros (u & U & B & [k K]) (u' & U' & B' & [j J]). rewrite (hour_unique _ _ _ U U') in *. f_equal. apply shifted_in; try assumption.
  exists (k - j)%Z. rewrite minus_IZR. lra.
Qed.

Section Aacgm.
Context (g2a a2g : string -> fl -> fl -> fl -> Z -> fl * fl) (mlt2lon : fl -> Z -> fl).
Context (a2g_heights : string -> fl -> fl -> list fl -> Z -> res (fl * fl)).
Notation update_v := (update_vect g2a a2g mlt2lon a2g_heights).

(** The location [p], given in coordinates called [loc], of a vector in system [c]: its
    place in that system and in magnetic coordinates at time [t]. *)
Definition located (tr : string) (c : system) (loc : string) (p : site) (t : Z) (geo mag : site) : Prop :=
  (loc = name c /\ geo = p /\ magnetic_at g2a tr c p t mag) \/
  (loc = name Magnetic /\ mag = p /\ geographic_at a2g mlt2lon tr c p t geo).

Lemma update_single tr c t hem loc p v mags : c <> Magnetic -> (loc = name c \/ loc = name Magnetic) ->
  exists geo mag, located tr c loc p t geo mag /\
    (let wm := String.eqb loc "magnetic" in turn g2a a2g mlt2lon tr c wm (p, t) = Ok (if wm then geo else mag) /\ p = if wm then mag else geo) /\
    update_v tr (One t) hem (mkVobj true [p] loc [v] (name c) mags) = rest a2g a2g_heights tr c hem (One t) true [geo] [mag] [v] mags.
Proof.
  intros N L. pose proof (update_vect_form g2a a2g mlt2lon a2g_heights tr c (One t) hem (mkVobj true [p] loc [v] (name c) mags) [(p, t)] N eq_refl L (at_one true [p] t) eq_refl) as E.
  cbv zeta in E. cbn [vo_loc vo_pl vo_single vo_vec vo_mag mapE] in E.
  destruct (turn_total g2a a2g mlt2lon tr c (String.eqb loc "magnetic") p t) as (q & TQ & R). rewrite TQ in E. cbn [bind] in E.
  destruct (String.eqb_spec loc "magnetic") as [M|M].
  - exists q, p. split; [right; split; [exact M|split; [reflexivity|exact R]]|]. split; [split; [exact TQ|reflexivity]|exact E].
  - exists p, q. split; [left; split; [destruct L as [L|L]; [exact L|contradiction]|split; [reflexivity|exact R]]|]. split; [split; [exact TQ|reflexivity]|exact E].
Qed.
Lemma located_height tr c loc p t geo mag : located tr c loc p t geo mag -> pl_h mag = pl_h p /\ pl_h geo = pl_h p.
Proof. intros [(_ & -> & (lon & _ & _ & H))|(_ & -> & (lon & _ & _ & H))]; split; congruence. Qed.
Lemma vectors_single geo mag n e z q A : calc_vec_pole_angle (pl_lt geo) (pl_lat geo) (snd q) (fst q) = Ok (Some A) ->
  vectors_to_mag true [mkCase geo mag (n, e, z) q] =
  (r <- vect_to_mag (pl_lt geo) (pl_lat geo) (pl_lt mag) (pl_lat mag) n e z (snd q) (fst q) ;; Ok [r]).
Proof.
  intros E. unfold vectors_to_mag. cbn [mapE]. unfold case_angle. cbn [k_geo k_pole]. rewrite E. cbn [bind forallb isnan andb combine mapE].
  unfold case_in, vect_to_mag. cbn [k_geo k_pole k_vec k_mag]. rewrite E. cbn [bind]. destruct (define_pole_quadrants _ _ _) as [pq|]; [|reflexivity]. cbn [bind mapE].
  destruct (adjust_vector _); reflexivity.
Qed.

(** ** C130 *)
(** One vector at one time: where the magnetic pole is off the meridian of the vector, the new
    components are those along the direction to the magnetic pole and to the right of it. *)
Theorem C130_vector_rotated_partial :
  (* missing: southern poles and poles on the meridian of the vector (C87_southern_refuted,
     C87_meridian_refuted), locations without magnetic coordinates (C130_not_magnetic_refuted) *)
  forall tr c t hem loc p n e z mags plat plon pslt, c <> Magnetic -> (loc = name c \/ loc = name Magnetic) ->
    (* the geographic location of the magnetic pole *)
    a2g_heights (code tr c "A2G") (Some (IZR hem * 90)) (Some 0) [pl_h p] t = Ok (Some plat, Some plon) -> 0 < plat < 90 ->
    local_time_at t (Some plon) (Some pslt) ->
    exists geo mag, located tr c loc p t geo mag /\
      forall glat glt, pl_lat geo = Some glat -> pl_lt geo = Some glt -> -90 < glat < 90 -> off_meridian glt pslt ->
        number (pl_lat mag) -> number (pl_lt mag) ->
        exists n' e' z', update_v tr (One t) hem (mkVobj true [p] loc [(Some n, Some e, Some z)] (name c) mags) =
            Ok (mkVobj true [mag] (name Magnetic) [(Some n', Some e', Some z')] (name Magnetic) [Some (length3 n' e' z')]) /\
          seen_along (place glat glt) (towards (place glat glt) (place plat pslt)) (horizontal glat glt n e) n' e' /\
          (~ (n = 0 /\ e = 0) -> z' = z).
Proof.
  intros tr c t hem loc p n e z mags plat plon pslt N L PO PB PT.
  destruct (update_single tr c t hem loc p (Some n, Some e, Some z) mags N L) as (geo & mag & LO & _ & E). exists geo, mag. split; [exact LO|].
  intros glat glt GA GT GB OFF MA MT. unfold rest in E. cbn [map forallb] in E. rewrite !andb_true_r in E.
  destruct (pl_lat mag) as [ma|] eqn:EMA; [|congruence]. destruct (pl_lt mag) as [mt|] eqn:EMT; [|congruence]. cbn [isnan orb] in E.
  unfold poles in E. rewrite (method_code_spec tr c (name c) (lower_name c)), (proj1 (located_height _ _ _ _ _ _ _ LO)), PO in E. cbn [bind] in E. unfold pole_of in E. cbn [snd fst] in E.
  destruct (glon2slt_at t (Some plon)) as (lt & EL & LL). rewrite EL in E. rewrite (local_unique _ _ _ _ LL PT) in E. cbn [bind map] in E.
  destruct (C87_geographic_vectors_partial glt glat (Some mt) (Some ma) n e z pslt plat GB PB OFF) as (n' & e' & z' & V & SA & _ & ZZ).
  destruct (pole_angle_general glt glat pslt plat OFF GB ltac:(lra) ltac:(lra)) as [A (EA & _)].
  unfold cases in E. cbn [combine map] in E. rewrite (vectors_single geo mag _ _ _ _ A) in E by (rewrite GA, GT; exact EA).
  cbn [snd fst] in E. rewrite GA, GT, EMA, EMT, V in E. cbn [bind map] in E. exists n', e', z'. split; [exact E|]. split; [exact SA|exact ZZ].
Qed.

(** Vectors that are magnetic stay as they are; so a second call changes nothing. *)
Theorem C130_repeat tr dt hem s : vo_vc s = name Magnetic -> update_v tr dt hem s = Ok s.
Proof. intros H. unfold update_vect. rewrite H. reflexivity. Qed.

(** Several vectors, each at its own time: the result is that of single vectors. *)
Definition one_vector (c : system) (loc : string) (it : site * (fl * fl * fl) * Z) : vobj :=
  let '(p, v, t) := it in mkVobj true [p] loc [v] (name c) [length_of v].
Definition time_of (it : site * (fl * fl * fl) * Z) : Z := snd it.
Definition all_vectors (c : system) (loc : string) (items : list (site * (fl * fl * fl) * Z)) : vobj :=
  mkVobj false (map (fun it => fst (fst it)) items) loc (map (fun it => snd (fst it)) items) (name c) (map (fun it => length_of (snd (fst it))) items).
(** aacgmv2 has numbers for numbers. *)
Definition numeric (f : string -> fl -> fl -> fl -> Z -> fl * fl) : Prop :=
  forall m a b h t, number a -> number b -> number h -> number (fst (f m a b h t)) /\ number (snd (f m a b h t)).

Record data := mkData { d_geo : site; d_mag : site; d_pole : fl * fl; d_ang : fl; d_in : vin; d_out : fl * fl * fl }.
Definition goes (tr : string) (c : system) (hem : Z) (wm : bool) (it : site * (fl * fl * fl) * Z) (d : data) : Prop :=
  let '(p, v, t) := it in
  let k := mkCase (d_geo d) (d_mag d) v (d_pole d) in
  turn g2a a2g mlt2lon tr c wm (p, t) = Ok (if wm then d_geo d else d_mag d) /\ p = (if wm then d_mag d else d_geo d) /\
  pl_h (d_mag d) = pl_h p /\ number (pl_lat (d_mag d)) /\ number (pl_lt (d_mag d)) /\
  pole_of t (a2g (code tr c "A2G") (Some (IZR hem * 90)) (Some 0) (pl_h p) t) = Ok (d_pole d) /\
  case_angle false k = Ok (d_ang d) /\ d_ang d <> None /\ case_in (k, d_ang d) = Ok (d_in d) /\ ready (d_in d) /\ adjust_vector (d_in d) = Ok (d_out d).

Lemma goes_single tr c hem loc it : c <> Magnetic -> (loc = name c \/ loc = name Magnetic) ->
  (forall m lat lon h t, a2g_heights m lat lon [h] t = Ok (a2g m lat lon h t)) ->
  numeric g2a -> numeric a2g -> (forall m t, number m -> number (mlt2lon m t)) ->
  number_site (fst (fst it)) -> number_vec (snd (fst it)) ->
  (exists s1, update_v tr (One (time_of it)) hem (one_vector c loc it) = Ok s1) ->
  exists d, goes tr c hem (String.eqb loc "magnetic") it d /\
    update_v tr (One (time_of it)) hem (one_vector c loc it) = Ok (mkVobj true [d_mag d] "magnetic" [d_out d] "magnetic" [length_of (d_out d)]).
Proof.
  intros N L H1 NG NA NM NS NV [s1 E1]. destruct it as [[p v] t]. cbn [fst snd time_of one_vector] in *.
  destruct (update_single tr c t hem loc p v [length_of v] N L) as (geo & mag & LO & (TQ & PQ) & E). rewrite E in E1 |- *. cbv zeta in TQ.
  destruct NS as (S1 & S2 & S3). destruct (located_height _ _ _ _ _ _ _ LO) as [HM HG].
  assert (LON : forall lon, longitude_at t (pl_lt p) lon -> number lon).
  { intros lon X. unfold longitude_at in X. destruct (pl_lt p); [|congruence]. destruct lon; [discriminate|destruct X]. }
  assert (NMAG : number (pl_lat mag) /\ number (pl_lt mag)).
  { destruct LO as [(_ & -> & (lon & LL & M & _))|(_ & -> & _)]; [|split; assumption].
    destruct (NG (code tr c "G2A") (pl_lat p) lon (pl_h p) t S1 (LON _ LL) S3) as [A B]. rewrite M in A, B. split; [exact A|exact B]. }
  assert (NGEO : number (pl_lat geo) /\ number (pl_lt geo)).
  { destruct LO as [(_ & -> & _)|(_ & -> & (lon & M & LT & _))]; [split; assumption|].
    destruct (NA (code tr c "A2G") (pl_lat p) (mlt2lon (pl_lt p) t) (pl_h p) t S1 (NM _ _ S2) S3) as [A B]. rewrite M in A, B. split; [exact A|].
    cbn [snd] in B. unfold local_time_at in LT. destruct lon; [|congruence]. destruct (pl_lt geo); [discriminate|destruct LT]. }
  unfold rest in E1 |- *. cbn [map forallb] in E1 |- *. rewrite !andb_true_r in E1 |- *.
  destruct NMAG as [NM1 NM2].
  assert (isnan (pl_lat mag) = false) as X1 by (destruct (pl_lat mag); [reflexivity|congruence]). assert (isnan (pl_lt mag) = false) as X2 by (destruct (pl_lt mag); [reflexivity|congruence]).
  rewrite X1, X2 in E1 |- *. cbn [orb] in E1 |- *. unfold poles in E1 |- *. rewrite (method_code_spec tr c (name c) (lower_name c)), HM, H1 in E1 |- *. cbn [bind] in E1 |- *.
  destruct (NA (code tr c "A2G") (Some (IZR hem * 90)) (Some 0) (pl_h p) t ltac:(discriminate) ltac:(discriminate) S3) as [NP1 NP2].
  set (o := a2g (code tr c "A2G") (Some (IZR hem * 90)) (Some 0) (pl_h p) t) in *.
  destruct (pole_of t o) as [q|] eqn:EQ; [|discriminate]. cbn [bind map] in E1 |- *.
  assert (NQ : number (fst q) /\ number (snd q)).
  { unfold pole_of in EQ. destruct (glon2slt_at t (snd o)) as (lt & EL & LL). rewrite EL in EQ. cbn [bind] in EQ. injection EQ as <-. cbn [fst snd].
    split; [exact NP1|]. unfold local_time_at in LL. destruct (snd o); [|congruence]. destruct lt; [discriminate|destruct LL]. }
  unfold cases in E1 |- *. cbn [combine map] in E1 |- *. unfold vectors_to_mag in E1 |- *. cbn [mapE] in E1 |- *.
  set (k := mkCase geo mag v q) in *.
  destruct (case_angle true k) as [a|] eqn:EA; [|discriminate]. cbn [bind forallb] in E1 |- *. rewrite andb_true_r in E1 |- *.
  destruct (isnan a) eqn:IA; [discriminate|]. cbn [combine mapE] in E1 |- *. destruct (case_in (k, a)) as [vi|] eqn:EV; [|discriminate]. cbn [bind mapE] in E1 |- *.
  destruct (adjust_vector vi) as [r|] eqn:ER; [|discriminate]. cbn [bind map] in E1 |- *.
  exists (mkData geo mag q a vi r). split; [|reflexivity]. unfold goes. cbn [d_geo d_mag d_pole d_ang d_in d_out]. fold k. fold o.
  split; [exact TQ|]. split; [exact PQ|]. split; [exact HM|]. split; [exact NM1|]. split; [exact NM2|]. split; [exact EQ|].
  split; [rewrite <- EA; unfold case_angle; cbn [k_geo k_pole k]; apply angle_elem_same; [exact (proj1 NGEO)|exact (proj1 NQ)]|].
  split; [intros ->; discriminate|]. split; [exact EV|]. split; [|exact ER].
  unfold case_in in EV. destruct v as [[n e] z]. cbn [k_vec k k_geo k_mag k_pole] in EV. destruct NV as (V1 & V2 & V3). cbn [fst snd] in *.
  destruct n as [n|]; [|congruence]. destruct e as [e|]; [|congruence].
  destruct (define_pole_quadrants (pl_lt geo) (snd q) a) as [pq|] eqn:EP; [|discriminate]. cbn [bind] in EV. injection EV as <-.
  unfold ready. cbn [v_q p_q v_n v_e p_ang]. split; [apply vq_range|]. split; [|split; [discriminate|split; [discriminate|intros ->; discriminate]]].
  apply (quad_zero_or (mkVin (pl_lt geo) None (Some n) (Some e) None 0 (snd q) None a 0) pq); [exact EP|]. unfold defined. cbn.
  split; [exact (proj2 NGEO)|]. split; [exact (proj2 NQ)|]. split; [discriminate|]. split; [discriminate|]. intros ->; discriminate.
Qed.

Theorem C130_arrays_partial :
  (* missing: several vectors at one time, whose pole comes from a call of aacgmv2 with all their
     heights at once; missing values *)
  forall tr c hem loc items, c <> Magnetic -> (loc = name c \/ loc = name Magnetic) -> items <> [] ->
    (* a list of one height is the ordinary call *)
    (forall m lat lon h t, a2g_heights m lat lon [h] t = Ok (a2g m lat lon h t)) ->
    numeric g2a -> numeric a2g -> (forall m t, number m -> number (mlt2lon m t)) ->
    Forall (fun it => number_site (fst (fst it)) /\ number_vec (snd (fst it)) /\
              exists s1, update_v tr (One (time_of it)) hem (one_vector c loc it) = Ok s1) items ->
    exists s', update_v tr (Many (map time_of items)) hem (all_vectors c loc items) = Ok s' /\
      vo_loc s' = name Magnetic /\ vo_vc s' = name Magnetic /\
      exists rs, vo_pl s' = map (fun r => fst (fst r)) rs /\ vo_vec s' = map (fun r => snd (fst r)) rs /\ vo_mag s' = map snd rs /\
        Forall2 (fun it r => update_v tr (One (time_of it)) hem (one_vector c loc it) =
                   Ok (mkVobj true [fst (fst r)] (name Magnetic) [snd (fst r)] (name Magnetic) [snd r])) items rs.
Proof.
  intros tr c hem loc items N L NE H1 NG NA NM F. rewrite Forall_forall in F.
  destruct (choose_all (fun it d => goes tr c hem (String.eqb loc "magnetic") it d /\
    update_v tr (One (time_of it)) hem (one_vector c loc it) = Ok (mkVobj true [d_mag d] "magnetic" [d_out d] "magnetic" [length_of (d_out d)])) items) as (ds & FD).
  { intros it I. destruct (F it I) as (A & B & C). apply goes_single; assumption. }
  set (wm := String.eqb loc "magnetic") in *.
  pose (prs := map (fun it : site * (fl * fl * fl) * Z => (fst (fst it), time_of it)) items).
  assert (AT : at_times false (map (fun it : site * (fl * fl * fl) * Z => fst (fst it)) items) (Many (map time_of items)) prs).
  { replace (map (fun it : site * (fl * fl * fl) * Z => fst (fst it)) items) with (map fst prs) by (unfold prs; rewrite map_map; reflexivity).
    replace (map time_of items) with (map snd prs) by (unfold prs; rewrite map_map; reflexivity). constructor. }
  pose proof (update_vect_form g2a a2g mlt2lon a2g_heights tr c (Many (map time_of items)) hem (all_vectors c loc items) prs N eq_refl L AT eq_refl) as E.
  cbv zeta in E. cbn [all_vectors vo_loc vo_pl vo_single vo_vec vo_mag] in E. fold wm in E.
  assert (T : mapE (turn g2a a2g mlt2lon tr c wm) prs = Ok (map (fun d => if wm then d_geo d else d_mag d) ds)).
  { unfold prs. eapply mapE_map; [|exact FD]. intros [[p v] t] d [(G & _) _]. exact G. }
  rewrite T in E. cbn [bind] in E.
  assert (PI : map (fun it : site * (fl * fl * fl) * Z => fst (fst it)) items = map (fun d => if wm then d_mag d else d_geo d) ds).
  { clear - FD. induction FD as [|[[p v] t] d its ds [(_ & P & _) _] FD IH]; [reflexivity|]. cbn [map fst]. rewrite IH, P. reflexivity. }
  rewrite PI in E.
  replace (if wm then map (fun d => if wm then d_geo d else d_mag d) ds else map (fun d => if wm then d_mag d else d_geo d) ds) with (map d_geo ds) in E by (destruct wm; reflexivity).
  replace (if wm then map (fun d => if wm then d_mag d else d_geo d) ds else map (fun d => if wm then d_geo d else d_mag d) ds) with (map d_mag ds) in E by (destruct wm; reflexivity).
  unfold rest in E.
  assert (NE' : ds <> []) by (intros ->; inversion FD; subst; contradiction).
  assert (X1 : forallb isnan (map pl_lat (map d_mag ds)) = false).
  { inversion FD as [|[[p v] t] d its ds' [(_ & _ & _ & A & _) _] _]; subst; [contradiction|]. cbn. destruct (pl_lat (d_mag d)); [reflexivity|congruence]. }
  assert (X2 : forallb isnan (map pl_lt (map d_mag ds)) = false).
  { inversion FD as [|[[p v] t] d its ds' [(_ & _ & _ & _ & A & _) _] _]; subst; [contradiction|]. cbn. destruct (pl_lt (d_mag d)); [reflexivity|congruence]. }
  rewrite X1, X2 in E. cbn [orb] in E.
  assert (PO : poles a2g a2g_heights tr (name c) hem (Many (map time_of items)) (map pl_h (map d_mag ds)) = Ok (map d_pole ds)).
  { unfold poles. rewrite (method_code_spec tr c (name c) (lower_name c)).
    replace (map pl_h (map d_mag ds)) with (map (fun it : site * (fl * fl * fl) * Z => pl_h (fst (fst it))) items).
    - rewrite combine_map. eapply mapE_map; [|exact FD]. intros [[p v] t] d [(_ & _ & _ & _ & _ & G & _) _]. exact G.
    - clear - FD. induction FD as [|[[p v] t] d its ds [(_ & _ & H & _) _] FD IH]; [reflexivity|]. cbn [map fst]. rewrite IH, H. reflexivity. }
  rewrite PO in E. cbn [bind] in E.
  assert (KS : exists ks, cases (map d_geo ds) (map d_mag ds) (map (fun it : site * (fl * fl * fl) * Z => snd (fst it)) items) (map d_pole ds) = ks /\
    Forall2 (fun k d => case_angle false k = Ok (d_ang d) /\ d_ang d <> None /\ case_in (k, d_ang d) = Ok (d_in d) /\ ready (d_in d) /\ adjust_vector (d_in d) = Ok (d_out d)) ks ds).
  { eexists. split; [reflexivity|]. clear - FD. induction FD as [|[[p v] t] d its ds [(_ & _ & _ & _ & _ & _ & G) _] FD IH]; [constructor|].
    unfold cases in *. cbn [map combine fst snd]. constructor; [exact G|exact IH]. }
  destruct KS as (ks & KE & FK). rewrite KE in E. unfold vectors_to_mag in E.
  assert (MA : mapE (case_angle false) ks = Ok (map d_ang ds)).
  { rewrite <- (map_id ks). eapply mapE_map; [|exact FK]. intros k d (G & _). exact G. }
  rewrite MA in E. cbn [bind] in E.
  assert (X3 : forallb isnan (map d_ang ds) = false).
  { inversion FK as [|k d ks' ds' (_ & A & _) _]; subst; [contradiction|]. cbn. destruct (d_ang d); [reflexivity|congruence]. }
  rewrite X3 in E.
  assert (MI : mapE case_in (combine ks (map d_ang ds)) = Ok (map d_in ds)).
  { clear - FK. induction FK as [|k d ks ds (_ & _ & G & _) FK IH]; [reflexivity|]. cbn [map combine mapE]. rewrite G. cbn [bind]. rewrite IH. reflexivity. }
  rewrite MI in E. cbn [bind] in E.
  assert (RD : Forall ready (map d_in ds)).
  { clear - FK. induction FK as [|k d ks ds (_ & _ & _ & G & _) FK IH]; [constructor|]. constructor; assumption. }
  rewrite (adjust_ready _ RD) in E by (intros X; apply map_eq_nil in X; contradiction). cbn [bind] in E.
  assert (OUT : map (fun v => match special v with Some r => r | None => elem_normal v end) (map d_in ds) = map d_out ds).
  { clear - FK. induction FK as [|k d ks ds (_ & _ & _ & G & A) FK IH]; [reflexivity|]. cbn [map]. rewrite IH. f_equal. rewrite (ready_elem _ G) in A. injection A as A. exact A. }
  rewrite OUT in E. eexists. split; [exact E|]. split; [reflexivity|]. split; [reflexivity|].
  exists (map (fun d => (d_mag d, d_out d, length_of (d_out d))) ds). cbn [vo_pl vo_vec vo_mag]. rewrite !map_map. cbn [fst snd].
  split; [reflexivity|]. split; [reflexivity|]. split; [reflexivity|].
  clear - FD. induction FD as [|it d its ds [_ G] FD IH]; [constructor|]. cbn [map]. constructor; [exact G|exact IH].
Qed.

(** Without a magnetic latitude for any location the call ends early: the location counts as
    magnetic, the vectors remain as they are, in their own system. *)
Theorem C130_no_magnetic_location tr c dt hem s prs : c <> Magnetic -> vo_vc s = name c -> vo_loc s = name c ->
  at_times (vo_single s) (vo_pl s) dt prs -> still_single s dt = vo_single s ->
  (forall x lon, In x prs -> fst (g2a (code tr c "G2A") (pl_lat (fst x)) lon (pl_h (fst x)) (snd x)) = None) ->
  exists s', update_v tr dt hem s = Ok s' /\ vo_loc s' = name Magnetic /\ vo_vec s' = vo_vec s /\ vo_vc s' = name c.
Proof.
  intros N VC L A SS H. pose proof (update_vect_form g2a a2g mlt2lon a2g_heights tr c dt hem s prs N VC (or_introl L) A SS) as E. cbv zeta in E. rewrite E. clear E.
  rewrite L. assert (String.eqb (name c) "magnetic" = false) as -> by (destruct c; [contradiction|reflexivity|reflexivity]).
  destruct (mapE_all (turn g2a a2g mlt2lon tr c false) (fun _ q => pl_lat q = None) prs) as (qs & -> & F).
  { intros [p t] I. destruct (turn_total g2a a2g mlt2lon tr c false p t) as (q & TQ & (lon & _ & M & _)). exists q. split; [exact TQ|].
    pose proof (H _ lon I) as X. cbn [fst snd] in X. rewrite M in X. exact X. }
  cbn [bind]. unfold rest.
  assert (forallb isnan (map pl_lat qs) = true) as ->.
  { clear - F. induction F as [|a q l qs H F IH]; [reflexivity|]. cbn. rewrite H. exact IH. }
  cbn [orb]. eexists. split; [reflexivity|]. cbn. repeat split.
Qed.
(** Without a longitude for the magnetic pole there is no angle, and a name is used before
    it is set. *)
Theorem C130_no_pole_raises tr c t hem p v mags plat : c <> Magnetic -> number (pl_lat p) -> number (pl_lt p) ->
  a2g_heights (code tr c "A2G") (Some (IZR hem * 90)) (Some 0) [pl_h p] t = Ok (plat, None) ->
  update_v tr (One t) hem (mkVobj true [p] (name Magnetic) [v] (name c) mags) = Err NameError.
Proof.
  intros N NA NT PO. destruct (update_single tr c t hem (name Magnetic) p v mags N (or_intror eq_refl)) as (geo & mag & LO & (_ & PQ) & E). cbn in PQ. subst mag. rewrite E.
  unfold rest. cbn [map forallb]. rewrite !andb_true_r.
  destruct (pl_lat p) eqn:E1; [|congruence]. destruct (pl_lt p) eqn:E2; [|congruence]. cbn [isnan orb].
  unfold poles. rewrite (method_code_spec tr c (name c) (lower_name c)), PO. cbn [bind]. unfold pole_of. cbn [snd fst]. rewrite glon2slt_nan. cbn [bind map].
  unfold cases, vectors_to_mag. cbn [combine map mapE]. unfold case_angle, calc_vec_pole_angle. cbn [k_pole k_geo snd fst fmap2].
  assert (hr2rad None PI = Ok None) as -> by (unfold hr2rad; cbn [fmap option_map]; apply fix_nan; pose proof PI_RGT_0; lra).
  reflexivity.
Qed.
End Aacgm.

(** ** A case: the magnetic pole at latitude 80 on the midnight meridian. *)
Definition demo_heights (m : string) (lat lon : fl) (hs : list fl) (t : Z) : res (fl * fl) := Ok (Some 80, Some 0).
Lemma midnight_off : off_meridian 6 0.
Proof. intros [k K]. assert (Y : IZR k * 2 = 1) by lra. rewrite <- mult_IZR in Y. apply eq_IZR in Y. lia. Qed.
Example C130_case : exists p n e z, update_vect demo_g2a demo_a2g demo_lon demo_heights "ALLOWTRACE" (One 0) 1 (demo_obj Geodetic) =
    Ok (mkVobj true [p] "magnetic" [(Some n, Some e, Some z)] "magnetic" [Some (length3 n e z)]) /\
  pl_lat p = Some 70 /\ z = 3 /\
  seen_along (place 70 6) (towards (place 70 6) (place 80 0)) (horizontal 70 6 1 2) n e.
Proof.
  destruct (C130_vector_rotated_partial demo_g2a demo_a2g demo_lon demo_heights "ALLOWTRACE" Geodetic 0 1 (name Geodetic) demo_site 1 2 3 [Some (sqrt 14)] 80 0 0) as (geo & mag & LO & H);
    [discriminate|left; reflexivity|reflexivity|lra|exists 0; split; [|split; [lra|exists 0%Z; lra]]|].
  { exists 0%Z, 0%Z. split; [split; [reflexivity|split; [reflexivity|reflexivity]]|lra]. }
  destruct LO as [(_ & -> & (lon & LO & M & _))|(X & _)]; [|discriminate]. destruct lon as [g|]; [|destruct LO].
  unfold demo_g2a in M. injection M as M1 M2. cbn in M1, M2.
  destruct (H 70 6 eq_refl eq_refl) as (n & e & z & E & S & Z); [lra|exact midnight_off|rewrite <- M1; discriminate|rewrite <- M2; discriminate|].
  exists mag, n, e, z. split; [exact E|]. split; [rewrite <- M1; f_equal; unfold lower_by; cbn; lra|]. split; [apply Z; lra|exact S].
Qed.

(** After the call the vectors need not be magnetic. *)
Definition nowhere_g2a (m : string) (lat lon h : fl) (t : Z) : fl * fl := (None, None).
Theorem C130_not_magnetic_refuted :
  ~ (forall g2a a2g mlt2lon a2g_heights tr dt hem s s', update_vect g2a a2g mlt2lon a2g_heights tr dt hem s = Ok s' -> vo_vc s' = name Magnetic).
Proof.
  intros H. destruct (C130_no_magnetic_location nowhere_g2a demo_a2g demo_lon demo_heights "ALLOWTRACE" Geodetic (One 0) 1 (demo_obj Geodetic) [(demo_site, 0%Z)]) as (s' & E & _ & _ & V);
    [discriminate|reflexivity|reflexivity|apply (at_one true [demo_site])|reflexivity|reflexivity|].
  specialize (H _ _ _ _ _ _ _ _ _ E). rewrite V in H. discriminate.
Qed.
Example C130_no_pole_case : update_vect demo_g2a demo_a2g demo_lon (fun _ _ _ _ _ => Ok (Some 80, None)) "ALLOWTRACE" (One 0) 1
  (mkVobj true [demo_site] "magnetic" [(Some 1, Some 2, Some 3)] "geodetic" [Some (sqrt 14)]) = Err NameError.
Proof.
  apply (C130_no_pole_raises demo_g2a demo_a2g demo_lon (fun _ _ _ _ _ => Ok (Some 80, None)) "ALLOWTRACE" Geodetic 0 1 demo_site _ _ (Some 80)); [discriminate|discriminate|discriminate|reflexivity].
Qed.
(** Two vectors, one of which would be enough. *)
Definition demo_items : list (site * (fl * fl * fl) * Z) :=
  [(demo_site, (Some 1, Some 2, Some 3), 0%Z); (mkSite (Some 60) (Some 6) (Some 350), (Some 0, Some (-1), Some 2), 0%Z)].
Definition pole_a2g (m : string) (lat lon h : fl) (t : Z) : fl * fl := (Some 80, Some 0).
Lemma demo_single lat n e z mags : -90 < lat < 90 -> exists n' e' z' p,
  update_vect demo_g2a pole_a2g demo_lon demo_heights "ALLOWTRACE" (One 0) 1 (mkVobj true [mkSite (Some lat) (Some 6) (Some 350)] "geodetic" [(Some n, Some e, Some z)] "geodetic" mags)
    = Ok (mkVobj true [p] "magnetic" [(Some n', Some e', Some z')] "magnetic" [Some (length3 n' e' z')]) /\ pl_lat p = Some lat.
Proof.
  intros B. destruct (C130_vector_rotated_partial demo_g2a pole_a2g demo_lon demo_heights "ALLOWTRACE" Geodetic 0 1 (name Geodetic) (mkSite (Some lat) (Some 6) (Some 350)) n e z mags 80 0 0) as (geo & mag & LO & H);
    [discriminate|left; reflexivity|reflexivity|lra|exists 0; split; [|split; [lra|exists 0%Z; lra]]|].
  { exists 0%Z, 0%Z. split; [split; [reflexivity|split; [reflexivity|reflexivity]]|lra]. }
  destruct LO as [(_ & -> & (lon & LO & M & _))|(X & _)]; [|discriminate]. destruct lon as [g|]; [|destruct LO].
  unfold demo_g2a in M. injection M as M1 M2. cbn in M1, M2.
  destruct (H lat 6 eq_refl eq_refl) as (n' & e' & z' & E & S & Z); [lra|exact midnight_off|rewrite <- M1; discriminate|rewrite <- M2; discriminate|].
  exists n', e', z', mag. split; [exact E|]. rewrite <- M1. f_equal. unfold lower_by. cbn. lra.
Qed.
Example C130_arrays_case : exists s', update_vect demo_g2a pole_a2g demo_lon demo_heights "ALLOWTRACE" (Many [0; 0]%Z) 1 (all_vectors Geodetic "geodetic" demo_items) = Ok s' /\
  vo_vc s' = "magnetic"%string /\ map pl_lat (vo_pl s') = [Some 70; Some 60].
Proof.
  destruct (demo_single 70 1 2 3 [length_of (Some 1, Some 2, Some 3)] ltac:(lra)) as (n1 & e1 & z1 & p1 & E1 & L1).
  destruct (demo_single 60 0 (-1) 2 [length_of (Some 0, Some (-1), Some 2)] ltac:(lra)) as (n2 & e2 & z2 & p2 & E2 & L2).
  destruct (C130_arrays_partial demo_g2a pole_a2g demo_lon demo_heights "ALLOWTRACE" Geodetic 1 "geodetic" demo_items) as (s' & E & _ & V & rs & P & _ & _ & F);
    [discriminate|left; reflexivity|discriminate|reflexivity| | | | |].
  - intros m a b h t A B _. destruct a as [a|]; [|congruence]. destruct b as [b|]; [|congruence]. split; discriminate.
  - intros m a b h t _ _ _. split; discriminate.
  - intros m t M. destruct m; [discriminate|congruence].
  - constructor; [|constructor; [|constructor]]; cbn [fst snd time_of one_vector demo_site]; (split; [split; [discriminate|split; discriminate]|split; [split; [discriminate|split; discriminate]|]]); eexists; eassumption.
  - exists s'. split; [exact E|]. split; [exact V|]. rewrite P.
    inversion F as [|? r1 ? l1 A1 F1]; subst. inversion F1 as [|? r2 ? l2 A2 F2]; subst. inversion F2; subst. cbn [map fst].
    apply (eq_trans (eq_sym E1)) in A1. apply (eq_trans (eq_sym E2)) in A2.
    injection A1 as <- _ _. injection A2 as <- _ _. rewrite L1, L2. reflexivity.
Qed.

(** ** C132 *)
Lemma getE_time dtimes i t : record_time dtimes i t -> getE dtimes i = Ok t.
Proof.
  intros [P N]. unfold getE, py_get. assert (L : (Z.to_nat i < List.length dtimes)%nat) by (apply nth_error_Some; congruence).
  assert ((0 <=? i)%Z = true) as -> by (apply Z.leb_le; exact P). assert ((i <? Z.of_nat (List.length dtimes))%Z = true) as -> by (apply Z.ltb_lt; lia).
  cbn [andb]. rewrite N. reflexivity.
Qed.
(** set_ocb converts geographic vectors as update_vect_coords_to_mag would at the time of
    their boundary record. *)
Theorem C132_time_of_record_partial :
  (* missing: one boundary record that the boundary object is not set to
     (C132_other_record_refuted); a trace method (C132_trace_method_refuted) *)
  forall g2a a2g mlt2lon a2g_heights dtimes hem s,
    let update := update_vect g2a a2g mlt2lon a2g_heights "ALLOWTRACE" in
    let convert := set_ocb_convert g2a a2g mlt2lon a2g_heights "ALLOWTRACE" in
    (forall i t, record_time dtimes i t -> convert dtimes i (Scalar i) hem s = update (One t) hem s) /\
    (forall rec_ind inds ts, Forall2 (record_time dtimes) inds ts -> convert dtimes rec_ind (Array inds) hem s = update (Many ts) hem s).
Proof.
  intros g2a a2g mlt2lon a2g_heights dtimes hem s update convert. split.
  - intros i t R. unfold convert, set_ocb_convert, set_ocb_times. rewrite (getE_time _ _ _ R). reflexivity.
  - intros rec_ind inds ts F. unfold convert, set_ocb_convert, set_ocb_times.
    assert (mapE (getE dtimes) inds = Ok ts) as ->; [|reflexivity].
    induction F as [|i t is ts R F IH]; [reflexivity|]. cbn [mapE]. rewrite (getE_time _ _ _ R). cbn [bind]. rewrite IH. reflexivity.
Qed.
(** Magnetic local time grows with the time, there is no magnetic latitude. *)
Definition clock_g2a (m : string) (lat lon h : fl) (t : Z) : fl * fl := (None, Some (IZR t)).
Definition method_g2a (m : string) (lat lon h : fl) (t : Z) : fl * fl := (None, Some (if String.eqb m "ALLOWTRACE|G2A" then 0 else 1)).
Lemma demo_vect g t tr hem : (forall m lat lon h, fst (g m lat lon h t) = None) ->
  exists lon, update_vect g demo_a2g demo_lon demo_heights tr (One t) hem (demo_obj Geodetic) =
    Ok (mkVobj true [mkSite None (snd (g (tr ++ "|G2A")%string (Some 70) lon (Some 350) t)) (Some 350)] "magnetic" [(Some 1, Some 2, Some 3)] "geodetic" [Some (sqrt 14)]).
Proof.
  intros H. pose proof (update_vect_form g demo_a2g demo_lon demo_heights tr Geodetic (One t) hem (demo_obj Geodetic) [(demo_site, t)] ltac:(discriminate) eq_refl (or_introl eq_refl) (at_one true [demo_site] t) eq_refl) as E.
  cbv zeta in E. rewrite E. clear E. cbn [demo_obj vo_loc name]. change (String.eqb "geodetic" "magnetic") with false. cbv iota. cbn [mapE]. unfold turn, to_mag.
  destruct (slt2glon_at t (pl_lt demo_site)) as (lon & EL & _). rewrite EL. cbn [bind]. unfold rest. cbn [map forallb pl_lat]. rewrite H. cbn [isnan andb orb]. exists lon. reflexivity.
Qed.
Theorem C132_other_record_refuted :
  ~ (forall g2a a2g mlt2lon a2g_heights dtimes rec_ind i t hem s, record_time dtimes i t ->
       set_ocb_convert g2a a2g mlt2lon a2g_heights "ALLOWTRACE" dtimes rec_ind (Scalar i) hem s = update_vect g2a a2g mlt2lon a2g_heights "ALLOWTRACE" (One t) hem s).
Proof.
  intros H. specialize (H clock_g2a demo_a2g demo_lon demo_heights [0; 1]%Z 0%Z 1%Z 1%Z 1%Z (demo_obj Geodetic)).
  assert (R : record_time [0; 1]%Z 1 1) by (split; [discriminate|reflexivity]). specialize (H R).
  unfold set_ocb_convert, set_ocb_times in H. change (getE [0; 1]%Z 0) with (@Ok Z 0%Z) in H. cbn [bind] in H.
  destruct (demo_vect clock_g2a 0 "ALLOWTRACE" 1 ltac:(reflexivity)) as [l0 E0]. destruct (demo_vect clock_g2a 1 "ALLOWTRACE" 1 ltac:(reflexivity)) as [l1 E1].
  rewrite E0, E1 in H. cbn [clock_g2a snd] in H. injection H. lra.
Qed.
Theorem C132_trace_method_refuted :
  ~ (forall g2a a2g mlt2lon a2g_heights tr dtimes i t hem s, record_time dtimes i t ->
       set_ocb_convert g2a a2g mlt2lon a2g_heights tr dtimes i (Scalar i) hem s = update_vect g2a a2g mlt2lon a2g_heights tr (One t) hem s).
Proof.
  intros H. specialize (H method_g2a demo_a2g demo_lon demo_heights "TRACE"%string [0]%Z 0%Z 0%Z 1%Z (demo_obj Geodetic)).
  assert (R : record_time [0]%Z 0 0) by (split; [discriminate|reflexivity]). specialize (H R).
  unfold set_ocb_convert, set_ocb_times in H. change (getE [0]%Z 0) with (@Ok Z 0%Z) in H. cbn [bind] in H.
  destruct (demo_vect method_g2a 0 "ALLOWTRACE" 1 ltac:(reflexivity)) as [l0 E0]. destruct (demo_vect method_g2a 0 "TRACE" 1 ltac:(reflexivity)) as [l1 E1].
  rewrite E0, E1 in H. cbn in H. injection H. lra.
Qed.
Example C132_case : exists s', set_ocb_convert demo_g2a pole_a2g demo_lon demo_heights "ALLOWTRACE" [0; 7]%Z 1 (Array [0; 0]%Z) 1 (all_vectors Geodetic "geodetic" demo_items) = Ok s' /\
  vo_vc s' = "magnetic"%string.
Proof.
  destruct C130_arrays_case as (s' & E & V & _). exists s'. split; [|exact V]. rewrite <- E.
  apply (C132_time_of_record_partial demo_g2a pole_a2g demo_lon demo_heights [0; 7]%Z 1 (all_vectors Geodetic "geodetic" demo_items)).
  constructor; [|constructor; [|constructor]]; split; try discriminate; reflexivity.
Qed.

Print Assumptions C130_vector_rotated_partial.
Print Assumptions C130_repeat.
Print Assumptions C130_arrays_partial.
Print Assumptions C130_no_magnetic_location.
Print Assumptions C130_no_pole_raises.
Print Assumptions C130_not_magnetic_refuted.
Print Assumptions C132_time_of_record_partial.
Print Assumptions C132_other_record_refuted.
Print Assumptions C132_trace_method_refuted.
