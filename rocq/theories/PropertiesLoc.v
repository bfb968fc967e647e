(** C127-C129, C131, C132: the coordinate system of the location of a VectorData object. *)
From Coq Require Import Reals ZArith List Bool String Ascii Lia Lra.
From Verif Require Import PyBase PyString RangeModel RangeSpec RangeProofs CoordModel DualCoordModel VectorModel ScalingModel
  PropertiesRange LocModel LocSpec LocProofs.
Import ListNotations.
Open Scope R_scope.

(** Everything but the location and its coordinate system. *)
Definition same_vectors (s s' : vobj) : Prop := vo_vec s' = vo_vec s /\ vo_vc s' = vo_vc s /\ vo_mag s' = vo_mag s.

(** One location at one time stays a scalar; arrays stay arrays and several times give an array. *)
Definition shape_kept (dt : times) (s s' : vobj) : Prop :=
  vo_single s' = true <-> vo_single s = true /\ exists t, dt = One t.

Section Aacgm.
Context (g2a a2g : string -> fl -> fl -> fl -> Z -> fl * fl) (mlt2lon : fl -> Z -> fl).
Notation update := (update_loc g2a a2g mlt2lon).

(** ** C127 *)
(** A geographic location becomes magnetic, each one at its own time with the method
    of its own system; a magnetic location becomes geographic. *)
Lemma shape_kept_ok dt s ps w : shape_kept dt s (with_places s (still_single s dt) ps w).
Proof.
  unfold shape_kept. cbn [with_places vo_single]. destruct dt as [t|ts]; cbn [still_single].
  - split; [intros H; split; [exact H|exists t; reflexivity]|intros [H _]; exact H].
  - split; [discriminate|intros [_ [t H]]; discriminate].
Qed.
Theorem C127_locations_converted_partial :
  (* missing: from one geographic system to the other (C127_between_systems_refuted) and
     geocentric locations whose name was given in capitals (C128_capitals_refuted) *)
  (forall tr dt w s c prs, called Magnetic w -> vo_loc s = name c -> c <> Magnetic -> at_times (vo_single s) (vo_pl s) dt prs ->
     exists s', update tr dt w s = Ok s' /\ called Magnetic (vo_loc s') /\ same_vectors s s' /\ shape_kept dt s s' /\
       Forall2 (fun x p' => magnetic_at g2a tr c (fst x) (snd x) p') prs (vo_pl s')) /\
  (forall tr dt w s c prs, called c w -> c <> Magnetic -> vo_loc s = name Magnetic -> at_times (vo_single s) (vo_pl s) dt prs ->
     exists s', update tr dt w s = Ok s' /\ called c (vo_loc s') /\ same_vectors s s' /\ shape_kept dt s s' /\
       Forall2 (fun x p' => geographic_at a2g mlt2lon tr c (fst x) (snd x) p') prs (vo_pl s')) /\
  (* as many times as locations, unless nothing has to be done *)
  (forall tr ts w s, vo_single s = false -> List.length ts <> List.length (vo_pl s) ->
     update tr (Many ts) w s = if String.eqb (lower w) (vo_loc s) then Ok s else Err ValueError).
Proof.
  split; [|split].
  - intros tr dt w s c prs W L N A. destruct (update_to_mag g2a a2g mlt2lon tr dt w s c prs W L N A) as (ps & E & F).
    eexists. split; [exact E|]. split; [exact W|]. split; [repeat split|]. split; [apply shape_kept_ok|exact F].
  - intros tr dt w s c prs W N L A. destruct (update_to_geo g2a a2g mlt2lon tr dt w s c prs W N) as (ps & E & F); [rewrite L; intros X; apply N; symmetry; apply name_inj; exact X|exact A|].
    eexists. split; [exact E|]. split; [exact W|]. split; [repeat split|]. split; [apply shape_kept_ok|exact F].
  - intros tr ts w s S L. destruct (String.eqb (lower w) (vo_loc s)) eqn:E.
    + apply update_same. apply String.eqb_eq. exact E.
    + apply update_mismatch; try assumption. apply String.eqb_neq. exact E.
Qed.
(** A geodetic location that is to become geocentric (or the reverse) is treated as if
    its numbers were magnetic. *)
Theorem C127_between_systems_as_magnetic tr dt w s c c' : called c' w -> vo_loc s = name c -> c <> c' -> c' <> Magnetic ->
  update tr dt w s = update tr dt w (mkVobj (vo_single s) (vo_pl s) (name Magnetic) (vo_vec s) (vo_vc s) (vo_mag s)).
Proof.
  intros W L N M. apply (update_geo_any g2a a2g mlt2lon tr dt w s c' W M). rewrite L. intros X. apply N. apply name_inj. exact X.
Qed.

(** ** C128 *)
Lemma shifted_24 h u lon lon' lt' : shifted 360 ((h - u) * 15) lon -> shifted 360 lon lon' -> shifted 24 (lon' / 15 + u) lt' -> shifted 24 h lt'.
Proof.
  intros [k K] [j J] [i I]. exists (k + j + i)%Z. rewrite !plus_IZR. rewrite I, J, K. field.
Qed.
Lemma shifted_in h h' : 0 <= h < 24 -> 0 <= h' < 24 -> shifted 24 h h' -> h' = h.
Proof.
  intros A B [k K]. assert (k = 0)%Z; [|subst; lra]. assert (-1 < IZR k < 1) as [K1 K2] by lra. apply lt_IZR in K1, K2. lia.
Qed.
(** To magnetic coordinates and back, names in small letters. *)
Theorem C128_round_trip_partial :
  (* missing: names in capitals (C128_capitals_refuted) and single locations with several times, which become arrays *)
  forall tr dt s c prs, vo_loc s = name c -> at_times (vo_single s) (vo_pl s) dt prs -> still_single s dt = vo_single s ->
    Forall (fun x => (exists h, pl_lt (fst x) = Some h /\ 0 <= h < 24) /\ invertible_at g2a a2g mlt2lon tr c (fst x) (snd x)) prs ->
    exists s', update tr dt (name Magnetic) s = Ok s' /\ update tr dt (name c) s' = Ok s.
Proof.
  intros tr dt s c prs L A SS F. destruct (String.eqb_spec (name c) (name Magnetic)) as [E|NE].
  { apply name_inj in E. subst c. exists s. split; apply update_same; rewrite L; reflexivity. }
  assert (N : c <> Magnetic) by congruence.
  destruct (update_to_mag g2a a2g mlt2lon tr dt (name Magnetic) s c prs eq_refl L N A) as (ps & E & F2).
  eexists. split; [exact E|]. set (s' := with_places _ _ _ _).
  (* the magnetic locations at the same times *)
  assert (LEN : List.length ps = List.length prs).
  { clear - F2. induction F2; [reflexivity|cbn; congruence]. }
  assert (A' : at_times (vo_single s') (vo_pl s') dt (combine ps (map snd prs))).
  { cbn [s' with_places vo_single vo_pl]. rewrite SS.
    inversion A as [single ps0 t E1 E2 E3|p ts E1 E2 E3|prs0 E1 E2 E3]; subst.
    - replace (combine ps (map snd (map (fun p => (p, t)) (vo_pl s)))) with (map (fun p => (p, t)) ps); [constructor|].
      rewrite map_map. cbn [snd]. rewrite map_length in LEN. clear - LEN. revert LEN. generalize (vo_pl s). induction ps as [|p ps IH]; intros [|q l] X; cbn in *; try discriminate; [reflexivity|].
      f_equal. apply IH. congruence.
    - cbn [still_single] in SS. congruence.
    - replace ps with (map fst (combine ps (map snd prs))) at 1.
      + replace (map snd prs) with (map snd (combine ps (map snd prs))) at 2; [constructor|].
        assert (G : forall (a : list site) (b : list Z), List.length a = List.length b -> map snd (combine a b) = b).
        { induction a as [|x a IH]; intros [|y b] X; cbn in *; try discriminate; [reflexivity|]. f_equal. apply IH. congruence. }
        apply G. rewrite map_length. exact LEN.
      + assert (G : forall (a : list site) (b : list Z), List.length a = List.length b -> map fst (combine a b) = a).
        { induction a as [|x a IH]; intros [|y b] X; cbn in *; try discriminate; [reflexivity|]. f_equal. apply IH. congruence. }
        apply G. rewrite map_length. exact LEN. }
  destruct (update_to_geo g2a a2g mlt2lon tr dt (name c) s' c (combine ps (map snd prs)) (lower_name c) N) as (qs & E' & F3); [intros X; apply N, name_inj; symmetry; exact X|exact A'|].
  rewrite E'. f_equal.
  assert (Q : qs = map fst prs).
  { clear - F F2 F3. revert ps qs F2 F3. induction F as [|[p t] prs [(h & H & B) I] F IH]; intros ps qs F2 F3; inversion F2 as [|? p' ? ps' M F2']; subst.
    - cbn in F3. inversion F3. reflexivity.
    - cbn [map combine snd] in F3. inversion F3 as [|? q ? qs' G F3']; subst. cbn [map fst]. f_equal; [|eapply IH; eassumption].
      cbn [fst snd] in *. destruct M as (lon & LO & M & HH). destruct G as (lon2 & G & LT & HH2).
      rewrite H in LO. destruct lon as [lon|]; [|destruct LO]. destruct LO as (u & U & LB & LS).
      destruct (I lon) as (lon' & X & SH); [rewrite H; exists u; repeat split; try assumption; lra|]. cbv zeta in X. rewrite M in X. cbn [fst snd] in X.
      rewrite HH in G. rewrite G in X. injection X as LA ->. unfold local_time_at in LT. destruct (pl_lt q) as [lt'|] eqn:PQ; [|destruct LT].
      destruct LT as (u' & U' & LB' & LS'). rewrite <- (hour_unique _ _ _ U U') in LS'.
      destruct p as [pa pl ph], q as [qa ql qh]. cbn [pl_lat pl_lt pl_h] in *. f_equal; [congruence| |congruence]. rewrite H, PQ. f_equal.
      apply shifted_in; try assumption. eapply shifted_24; eassumption. }
  assert (FM : map fst prs = vo_pl s).
  { inversion A as [single ps0 t E1 E2 E3|p ts E1 E2 E3|prs0 E1 E2 E3]; subst.
    - rewrite map_map. cbn [fst]. apply map_id.
    - cbn [still_single] in SS. congruence.
    - reflexivity. }
  rewrite Q, FM. unfold s', with_places. cbn [vo_vec vo_vc vo_mag still_single vo_single].
  destruct s as [single pl loc vec vc mag]. cbn [vo_vec vo_vc vo_mag vo_single vo_pl vo_loc still_single] in *. subst loc. f_equal.
  destruct dt; cbn [still_single vo_single] in *; [exact SS|exact SS].
Qed.

(** ** C129 *)
(** Asking again for the same system changes nothing. *)
Theorem C129_repeat_partial :
  (* missing: names in capitals (C129_capitals_refuted) *)
  forall tr tr' dt dt' w s s', lower w = w -> update tr dt w s = Ok s' -> update tr' dt' w s' = Ok s'.
Proof.
  intros tr tr' dt dt' w s s' W E. apply update_same. rewrite W. unfold update_loc in E. destruct (String.eqb_spec (lower w) (vo_loc s)) as [X|X].
  - injection E as <-. rewrite <- W. exact X.
  - destruct (pairing s dt) as [prs|]; cbn [bind] in E; [|discriminate].
    destruct (if String.eqb _ _ then _ else _) as [ps|]; cbn [bind] in E; [|discriminate]. injection E as <-. reflexivity.
Qed.
End Aacgm.

(** ** A world in which the magnetic longitude is 30 degrees east of the geographic one,
    latitudes agree, and the geocentric latitude is 1 degree below the geodetic. *)
Definition lower_by (m : string) : R := if String.eqb m "ALLOWTRACE|GEOCENTRIC|G2A" then 1 else if String.eqb m "ALLOWTRACE|GEOCENTRIC|A2G" then 1 else 0.
Definition demo_g2a (m : string) (lat lon h : fl) (t : Z) : fl * fl := (fmap (fun x => x + lower_by m) lat, fmap (fun g => (g + 30) / 15) lon).
Definition demo_lon (mlt : fl) (t : Z) : fl := fmap (fun m => m * 15) mlt.
Definition demo_a2g (m : string) (lat lon h : fl) (t : Z) : fl * fl := (fmap (fun x => x - lower_by m) lat, fmap (fun g => g - 30) lon).
Definition demo_site : site := mkSite (Some 70) (Some 6) (Some 350).
Definition demo_obj (c : system) : vobj := mkVobj true [demo_site] (name c) [(Some 1, Some 2, Some 3)] (name Geodetic) [Some (sqrt 14)].

Lemma demo_invertible c p t h : pl_lat p = Some h -> invertible_at demo_g2a demo_a2g demo_lon "ALLOWTRACE" c p t.
Proof.
  intros H lon _. cbv zeta. rewrite H. exists lon. split; [|exists 0%Z; lra].
  assert (E : forall x y, x + y - y = x) by (intros; lra).
  unfold demo_a2g, demo_g2a, demo_lon. cbn [fst snd fmap option_map]. destruct c; cbn [code append lower_by String.eqb Ascii.eqb Bool.eqb]; f_equal; f_equal; lra.
Qed.
Lemma demo_lt_glon t lt : t = 0%Z -> 0 <= lt < 24 -> exists g, slt2glon (Some lt) (uth t) = Ok (Some g) /\ (g = lt * 15 \/ g = lt * 15 - 360).
Proof.
  intros -> B. destruct (C20_slt2glon_spec lt (uth 0)) as (g & E & G & [k K]). exists g. split; [exact E|].
  assert (U : uth 0 = 0) by (unfold uth, datetime2hr; cbn; lra). rewrite U in K.
  assert (k = 0 \/ k = -1)%Z as [-> | ->]; [|left; lra|right; lra].
  assert (-2 < IZR k < 1 + 1) as [A1 A2] by lra. apply lt_IZR in A1. change (1 + 1) with 2 in A2. apply lt_IZR in A2.
  assert (IZR k * 360 < 360) by lra. assert (IZR k < 1) as A3 by lra. apply lt_IZR in A3. lia.
Qed.

Example C127_case : exists s', update_loc demo_g2a demo_a2g demo_lon "ALLOWTRACE" (One 0) "Magnetic" (demo_obj Geocentric) = Ok s' /\
  exists p, vo_pl s' = [p] /\ pl_lat p = Some 71.
Proof.
  destruct (C127_locations_converted_partial demo_g2a demo_a2g demo_lon) as [H _].
  destruct (H "ALLOWTRACE"%string (One 0) "Magnetic"%string (demo_obj Geocentric) Geocentric [(demo_site, 0%Z)] eq_refl eq_refl) as (s' & E & _ & _ & _ & F); [discriminate|apply (at_one true [demo_site])|].
  exists s'. split; [exact E|]. inversion F as [|? p ? ? (lon & LO & M & _) F']; subst. inversion F'; subst. exists p. split; [reflexivity|].
  unfold demo_g2a in M. injection M as M _. cbn in M. rewrite <- M. f_equal. lra.
Qed.
Example C128_case c : exists s', update_loc demo_g2a demo_a2g demo_lon "ALLOWTRACE" (One 0) "magnetic" (demo_obj c) = Ok s' /\
  update_loc demo_g2a demo_a2g demo_lon "ALLOWTRACE" (One 0) (name c) s' = Ok (demo_obj c).
Proof.
  apply (C128_round_trip_partial demo_g2a demo_a2g demo_lon "ALLOWTRACE" (One 0) (demo_obj c) c [(demo_site, 0%Z)]); [reflexivity|apply (at_one true [demo_site])|reflexivity|].
  constructor; [|constructor]. split; [exists 6; split; [reflexivity|lra]|]. apply (demo_invertible c demo_site 0 70). reflexivity.
Qed.

(** Geodetic latitude 70 becomes a geocentric latitude of 69 only if the call goes by way
    of magnetic coordinates; the local time 6 is shifted by the direct call although the
    meridian is the same in both systems. *)
Lemma hour_zero u : hour_of 0 u -> u = 0.
Proof. intros H. rewrite (hour_unique _ _ _ H (uth_hour 0)). unfold uth, datetime2hr. cbn. lra. Qed.
Theorem C127_between_systems_refuted :
  ~ (forall g2a a2g mlt2lon tr t s s1 s2 s3,
       (forall c x, In x (vo_pl s) -> invertible_at g2a a2g mlt2lon tr c x t) ->
       update_loc g2a a2g mlt2lon tr (One t) "geocentric" s = Ok s1 ->
       update_loc g2a a2g mlt2lon tr (One t) "magnetic" s = Ok s2 -> update_loc g2a a2g mlt2lon tr (One t) "geocentric" s2 = Ok s3 ->
       s1 = s3).
Proof.
  intros H.
  destruct (update_to_mag demo_g2a demo_a2g demo_lon "ALLOWTRACE" (One 0) "magnetic" (demo_obj Geodetic) Geodetic [(demo_site, 0%Z)] eq_refl eq_refl) as (ps2 & E2 & F2); [discriminate|apply (at_one true [demo_site])|].
  destruct (update_to_geo demo_g2a demo_a2g demo_lon "ALLOWTRACE" (One 0) "geocentric" (demo_obj Geodetic) Geocentric [(demo_site, 0%Z)] eq_refl) as (ps1 & E1 & F1); [discriminate|discriminate|apply (at_one true [demo_site])|].
  inversion F2 as [|? p2 ? ? (lon & LO & M & HH) F']; subst. inversion F'; subst.
  destruct (update_to_geo demo_g2a demo_a2g demo_lon "ALLOWTRACE" (One 0) "geocentric" (with_places (demo_obj Geodetic) true [p2] "magnetic") Geocentric [(p2, 0%Z)] eq_refl) as (ps3 & E3 & F3); [discriminate|discriminate|apply (at_one true [p2])|].
  assert (INV : forall c x, In x (vo_pl (demo_obj Geodetic)) -> invertible_at demo_g2a demo_a2g demo_lon "ALLOWTRACE" c x 0).
  { intros c x [<- |[]]. apply (demo_invertible c demo_site 0 70). reflexivity. }
  specialize (H demo_g2a demo_a2g demo_lon "ALLOWTRACE"%string 0%Z (demo_obj Geodetic) _ _ _ INV E1 E2 E3).
  injection H as <-. inversion F1 as [|? q ? ? (lon1 & G1 & T1 & _) F1']; subst. inversion F1'; subst.
  inversion F3 as [|? q' ? ? (lon3 & G3 & T3 & _) F3']; subst. cbn [fst snd] in *.
  (* local time 4 from the direct call, 6 by way of magnetic coordinates *)
  unfold demo_a2g, demo_lon, demo_site in G1. injection G1 as _ <-. cbn [pl_lt fmap option_map] in T1.
  unfold demo_g2a in M. injection M as _ M. cbn [pl_lt demo_site] in LO. destruct lon as [g|]; [|destruct LO]. cbn [fmap option_map] in M.
  unfold demo_a2g, demo_lon in G3. rewrite <- M in G3. injection G3 as _ <-. cbn [fmap option_map] in T3.
  destruct LO as (u & U & LB & LS). unfold local_time_at in T1, T3. destruct (pl_lt q) as [h|]; [|destruct T1]. destruct T1 as (u1 & U1 & B1 & S1). destruct T3 as (u3 & U3 & B3 & S3).
  rewrite (hour_zero _ U), (hour_zero _ U1), (hour_zero _ U3) in *. clear - LS S1 S3.
  destruct LS as [a A], S1 as [b B], S3 as [d D].
  assert (Y : IZR (b - d - a) * 24 = 2) by (rewrite !minus_IZR; lra).
  rewrite <- mult_IZR in Y. apply eq_IZR in Y. lia.
Qed.

(** A name in capitals is stored in capitals.  The method for a location called "Geocentric"
    is then that for geodetic locations: the latitude is off after a round trip. *)
Theorem C128_capitals_refuted :
  ~ (forall g2a a2g mlt2lon tr t s s1 s2 w,
       (forall c p x, pl_lat p = Some x -> invertible_at g2a a2g mlt2lon tr c p t) ->
       (forall c lat lon h, fst (g2a (code tr c "G2A") (fst (a2g (code tr c "A2G") lat lon h t)) (snd (a2g (code tr c "A2G") lat lon h t)) h t) = lat) ->
       called Geocentric w -> vo_loc s = name Magnetic ->
       update_loc g2a a2g mlt2lon tr (One t) w s = Ok s1 -> update_loc g2a a2g mlt2lon tr (One t) "magnetic" s1 = Ok s2 ->
       map pl_lat (vo_pl s2) = map pl_lat (vo_pl s)).
Proof.
  intros H.
  destruct (update_to_geo demo_g2a demo_a2g demo_lon "ALLOWTRACE" (One 0) "Geocentric" (demo_obj Magnetic) Geocentric [(demo_site, 0%Z)] eq_refl) as (ps1 & E1 & F1); [discriminate|discriminate|apply (at_one true [demo_site])|].
  inversion F1 as [|? q ? ? (lon1 & G1 & T1 & HH) F1']; subst. inversion F1'; subst. injection G1 as G1 _. cbn [fst demo_site pl_lat fmap option_map] in G1.
  assert (exists p, update_loc demo_g2a demo_a2g demo_lon "ALLOWTRACE" (One 0) "magnetic" (with_places (demo_obj Magnetic) true [q] "Geocentric") = Ok (with_places (demo_obj Magnetic) true [p] "magnetic") /\ pl_lat p = Some (70 - 1 + 0)) as (p & E2 & PL).
  { destruct (to_mag_spec demo_g2a "ALLOWTRACE" Geodetic q 0) as (p & EP & (lon & _ & M & _)). exists p. split.
    - unfold update_loc. cbn [with_places vo_loc lower]. change (g2a_code "ALLOWTRACE" "Geocentric") with (code "ALLOWTRACE" Geodetic "G2A").
      cbn -[to_mag code]. rewrite EP. reflexivity.
    - injection M as M _. rewrite <- M, <- G1. reflexivity. }
  assert (X : forall c lat lon h, fst (demo_g2a (code "ALLOWTRACE" c "G2A") (fst (demo_a2g (code "ALLOWTRACE" c "A2G") lat lon h 0)) (snd (demo_a2g (code "ALLOWTRACE" c "A2G") lat lon h 0)) h 0) = lat).
  { intros c [x|] lon h; [|reflexivity]. unfold demo_g2a, demo_a2g. cbn [fst snd fmap option_map]. destruct c; cbn -[Rplus Rminus]; f_equal; lra. }
  specialize (H demo_g2a demo_a2g demo_lon "ALLOWTRACE"%string 0%Z (demo_obj Magnetic) _ _ "Geocentric"%string (fun c p x => demo_invertible c p 0 x) X eq_refl eq_refl E1 E2). cbn in H. rewrite PL in H. injection H. lra.
Qed.

(** Asking for "Magnetic" twice converts twice. *)
Theorem C129_capitals_refuted :
  ~ (forall g2a a2g mlt2lon tr dt s s1 s2 w, called Magnetic w ->
       update_loc g2a a2g mlt2lon tr dt w s = Ok s1 -> update_loc g2a a2g mlt2lon tr dt w s1 = Ok s2 -> s2 = s1).
Proof.
  intros H.
  destruct (update_to_mag demo_g2a demo_a2g demo_lon "ALLOWTRACE" (One 0) "Magnetic" (demo_obj Geodetic) Geodetic [(demo_site, 0%Z)] eq_refl eq_refl) as (ps1 & E1 & F1); [discriminate|apply (at_one true [demo_site])|].
  inversion F1 as [|? q ? ? (lon1 & L1 & M1 & HH) F1']; subst. inversion F1'; subst.
  destruct (to_mag_spec demo_g2a "ALLOWTRACE" Geodetic q 0) as (p & EP & (lon2 & L2 & M2 & _)).
  assert (E2 : update_loc demo_g2a demo_a2g demo_lon "ALLOWTRACE" (One 0) "Magnetic" (with_places (demo_obj Geodetic) true [q] "Magnetic") = Ok (with_places (demo_obj Geodetic) true [p] "Magnetic")).
  { unfold update_loc. cbn [with_places vo_loc lower]. change (g2a_code "ALLOWTRACE" "Magnetic") with (code "ALLOWTRACE" Geodetic "G2A").
    cbn -[to_mag code]. rewrite EP. reflexivity. }
  specialize (H demo_g2a demo_a2g demo_lon "ALLOWTRACE"%string (One 0) _ _ _ "Magnetic"%string eq_refl E1 E2). injection H as ->.
  unfold demo_g2a in M1, M2. injection M1 as _ M1. injection M2 as _ M2. cbn [fst snd demo_site pl_lt] in *.
  destruct lon1 as [g1|]; [|destruct L1]. cbn [fmap option_map] in M1. rewrite <- M1 in L2, M2. destruct lon2 as [g2|]; [|destruct L2]. injection M2 as M2.
  destruct L1 as (u1 & U1 & _ & [a A]). destruct L2 as (u2 & U2 & _ & [b B]). rewrite (hour_zero _ U1), (hour_zero _ U2) in *.
  assert (Y : IZR b * 360 = -30) by lra. rewrite <- mult_IZR in Y. change (-30) with (IZR (-30)) in Y. apply eq_IZR in Y. lia.
Qed.
Example C129_case : exists s', update_loc demo_g2a demo_a2g demo_lon "ALLOWTRACE" (One 0) "magnetic" (demo_obj Geodetic) = Ok s' /\ s' <> demo_obj Geodetic /\
  update_loc demo_g2a demo_a2g demo_lon "ALLOWTRACE" (One 5) "magnetic" s' = Ok s'.
Proof.
  destruct (update_to_mag demo_g2a demo_a2g demo_lon "ALLOWTRACE" (One 0) "magnetic" (demo_obj Geodetic) Geodetic [(demo_site, 0%Z)] eq_refl eq_refl) as (ps1 & E1 & F1); [discriminate|apply (at_one true [demo_site])|].
  eexists. split; [exact E1|]. split; [discriminate|]. eapply C129_repeat_partial; [|exact E1]. reflexivity.
Qed.

(** ** C131 *)
(** The constructor takes two coordinate systems by any spelling of their names, unless one
    is geodetic and the other geocentric; it stores the names in small letters. *)
Theorem C131_names_accepted loc vect :
  (forall l v, test_coords loc vect = Ok (l, v) <->
     exists c d, called c loc /\ called d vect /\ l = name c /\ v = name d /\ (c = d \/ c = Magnetic \/ d = Magnetic)) /\
  (test_coords loc vect = Err ValueError <->
     forall c d, called c loc -> called d vect -> (c = Geocentric /\ d = Geodetic) \/ (c = Geodetic /\ d = Geocentric)).
Proof.
  assert (K : forall w, {c | called c w} + {forall c, ~ called c w}).
  { intros w. unfold called. destruct (string_dec (lower w) (name Magnetic)); [left; exists Magnetic; assumption|].
    destruct (string_dec (lower w) (name Geocentric)); [left; exists Geocentric; assumption|].
    destruct (string_dec (lower w) (name Geodetic)); [left; exists Geodetic; assumption|]. right. intros []; assumption. }
  assert (G : forall w, str_in (lower w) good_coords = true <-> exists c, called c w).
  { intros w. unfold str_in, good_coords, called. cbn [existsb]. rewrite !orb_true_iff, !String.eqb_eq. split.
    - intros [A|[A|[A|A]]]; [exists Magnetic|exists Geocentric|exists Geodetic|discriminate]; exact A.
    - intros [[] A]; rewrite A; auto. }
  unfold test_coords. cbv zeta. destruct (K loc) as [[c C]|NC].
  2: { assert (str_in (lower loc) good_coords = false) as -> by (apply not_true_iff_false; rewrite G; intros [c C]; exact (NC c C)).
       cbn [negb]. split; [intros l v; split; [discriminate|intros (c & d & C & _); destruct (NC c C)]|]. split; [intros _ c d C; destruct (NC c C)|reflexivity]. }
  rewrite (proj2 (G loc) (ex_intro _ c C)). cbn [negb]. destruct (K vect) as [[d D]|ND].
  2: { assert (str_in (lower vect) good_coords = false) as -> by (apply not_true_iff_false; rewrite G; intros [d D]; exact (ND d D)).
       cbn [negb]. split; [intros l v; split; [discriminate|intros (c' & d & _ & D & _); destruct (ND d D)]|]. split; [intros _ c' d _ D; destruct (ND d D)|reflexivity]. }
  rewrite (proj2 (G vect) (ex_intro _ d D)). cbn [negb].
  assert (U : forall w a b, called a w -> called b w -> a = b) by (intros w a b A B; apply name_inj; congruence).
  replace (lower loc) with (name c) by (symmetry; exact C). replace (lower vect) with (name d) by (symmetry; exact D). split.
  - intros l v. split.
    + intros H. exists c, d. split; [exact C|]. split; [exact D|]. destruct c, d; vm_compute in H; try discriminate; inversion H; (split; [reflexivity|]; split; [reflexivity|]; auto).
    + intros (c' & d' & C' & D' & -> & -> & R). rewrite (U _ _ _ C' C), (U _ _ _ D' D) in *. destruct c, d; try reflexivity; destruct R as [R|[R|R]]; discriminate.
  - split.
    + intros H c' d' C' D'. rewrite (U _ _ _ C' C), (U _ _ _ D' D). destruct c, d; try discriminate; auto.
    + intros H. destruct (H c d C D) as [[-> ->]|[-> ->]]; reflexivity.
Qed.
Example C131_case : test_coords "Magnetic" "GEODETIC" = Ok ("magnetic", "geodetic")%string /\ test_coords "geodetic" "geocentric" = Err ValueError /\ test_coords "apex" "magnetic" = Err ValueError.
Proof. repeat split. Qed.

(** ** C132 *)
(** The time at which set_ocb converts geographic vectors. *)
Definition record_time (dtimes : list Z) (i t : Z) : Prop := (0 <= i)%Z /\ nth_error dtimes (Z.to_nat i) = Some t.

Print Assumptions C127_locations_converted_partial.
Print Assumptions C127_between_systems_as_magnetic.
Print Assumptions C127_between_systems_refuted.
Print Assumptions C128_round_trip_partial.
Print Assumptions C128_capitals_refuted.
Print Assumptions C129_repeat_partial.
Print Assumptions C129_capitals_refuted.
Print Assumptions C131_names_accepted.
