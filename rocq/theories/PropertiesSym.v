(** C161, C162: symmetries of the coordinate conversions. *)
From Coq Require Import Reals ZArith List Bool Lia Lra.
From Verif Require Import PyBase RangeModel RangeSpec CoordModel CoordSpec CoordProofs CoordProofs2 DualCoordModel DualCoordSpec DualCoordProofs
  PropertiesCoord PropertiesDualCoord SymSpec SymProofs SymProofs2.
Import ListNotations.
Open Scope R_scope.

(** ** C161: the other hemisphere *)

(** Opposite latitudes given to the boundary in the other hemisphere: the
    resulting latitudes are opposite, everything else is the same, for every input
    including NaN, wrong hemispheres, records out of range and exceptions. *)
Theorem C161_single :
  forall b,
    (forall lat lt,
       normal_coord (mirror b) (opp_arr lat) lt =
       match normal_coord b lat lt with
       | Ok (L, M, C, after) => Ok (opp_arr L, M, C, opps after)
       | Err e => Err e
       end) /\
    (forall olat omlt rcorr,
       revert_coord (mirror b) (opp_arr olat) omlt rcorr =
       match revert_coord b olat omlt rcorr with
       | Ok (L, M) => Ok (opp_arr L, M)
       | Err e => Err e
       end) /\
    (forall stored mlt ri ow c e m,
       get_aacgm_boundary_lat b stored mlt ri ow = (c, e, m) ->
       exists c', get_aacgm_boundary_lat (mirror b) (mirror_store stored) mlt ri ow = (c', e, m) /\
         Some c' = mirror_store (Some c)).
Proof.
  intros b. split; [|split].
  - intros lat lt. rewrite normal_coord_mirror. destruct (normal_coord b lat lt) as [[[[L M] C] a]|e]; reflexivity.
  - intros olat omlt rcorr. rewrite revert_coord_mirror. destruct (revert_coord b olat omlt rcorr) as [[L M]|e]; reflexivity.
  - intros stored mlt ri ow c e m E. rewrite get_lat_mirror, E. cbn [mirror_g]. eexists. split; reflexivity.
Qed.

(** The same for a dual boundary, and for what it stores. *)
Theorem C161_dual :
  forall d ow,
    (forall lat lt d' r,
       dual_normal d lat lt ow = (d', r) ->
       dual_normal (mirror_dual d) (opp_arr lat) lt ow =
         (mirror_dual d', match r with
                          | Ok (BL, M, L, C) => Ok (opp_arr BL, M, opp_arr L, C)
                          | Err e => Err e
                          end)) /\
    (forall olat omlt rcorr is_ocb amlt d' r,
       dual_revert d olat omlt rcorr is_ocb amlt ow = (d', r) ->
       dual_revert (mirror_dual d) (opp_arr olat) omlt rcorr is_ocb amlt ow =
         (mirror_dual d', match r with
                          | Ok (LA, LT) => Ok (opp_arr LA, LT)
                          | Err e => Err e
                          end)) /\
    (forall lats amlt rcorr d' r,
       dual_calc_r d lats amlt rcorr ow = (d', r) ->
       dual_calc_r (mirror_dual d) (opps lats) amlt rcorr ow = (mirror_dual d', r)).
Proof.
  intros d ow. split; [|split].
  - intros lat lt d' r E. rewrite dual_normal_mirror, E. cbn [fst snd]. f_equal.
    destruct r as [[[[B M] L] C]|e]; reflexivity.
  - intros olat omlt rcorr is_ocb amlt d' r E. rewrite dual_revert_mirror, E. cbn [fst snd]. f_equal.
    destruct r as [[LA LT]|e]; reflexivity.
  - intros lats amlt rcorr d' r E. rewrite dual_calc_r_mirror, E. reflexivity.
Qed.

(** The point of C27_case in the south: 66 degrees south is on the boundary, and
    goes to 74 degrees south. *)
Example C161_case : exists omlt after,
  normal_coord bnd1s (sc (Some (-66))) (sc (Some 0)) =
    Ok (out true [Some (-74)], out true [Some omlt], out true [Some 2], after).
Proof.
  destruct C27_case as [om [a E]]. exists om, (opps a).
  change bnd1s with (mkBnd (- 1) (-74) [rec1] 0). 
  replace (mkBnd (- 1) (-74) [rec1] 0) with (mirror bnd1) by (unfold mirror, bnd1; cbn; f_equal; lra).
  replace (sc (Some (-66))) with (opp_arr (sc (Some 66))) by (unfold opp_arr, sc; cbn; do 3 f_equal; lra).
  rewrite (proj1 (C161_single bnd1)), E. unfold opp_arr, out. cbn. do 6 f_equal; lra.
Qed.
Print Assumptions C161_single.
Print Assumptions C161_dual.

(** ** C162: turning around the pole *)

(** The conversions of [b'] (record [rc']) at the local times [g m] are those of
    [b] (record [rc]) at [m]: the same latitudes and corrections, and local times
    changed by [g] (modulo 24 hours, and except at the centre and the pole, where
    there is no local time). *)
Definition follows (g : R -> R) (b b' : bnd) (rc rc' : rec) : Prop :=
  (forall lat mlt c,
     in_hemisphere (hemi b) lat -> rfun rc (Some mlt) = Some c -> rr rc + c <> 0 ->
     exists olat omlt omlt' after after',
       normal_coord b (sc (Some lat)) (sc (Some mlt)) =
         Ok (out true [Some olat], out true [Some omlt], out true [Some c], after) /\
       normal_coord b' (sc (Some lat)) (sc (Some (g mlt))) =
         Ok (out true [Some olat], out true [Some omlt'], out true [Some c], after') /\
       0 <= omlt' < 24 /\
       (point (colat (hemi b) lat) mlt <> centre rc -> shifted 24 (g omlt) omlt')) /\
  (forall olat omlt c,
     in_hemisphere (hemi b) olat ->
     exists lat mlt mlt',
       revert_coord b (sc (Some olat)) (sc (Some omlt)) (sc (Some c)) =
         Ok (out true [Some lat], out true [Some mlt]) /\
       revert_coord b' (sc (Some olat)) (sc (Some (g omlt))) (sc (Some c)) =
         Ok (out true [Some lat], out true [Some mlt']) /\
       0 <= mlt' < 24 /\
       (IZR (hemi b) * lat <> 90 -> shifted 24 (g mlt) mlt')) /\
  (forall i k i' k' ms,
     denotes (length (recs b)) i k -> nth_error (recs b) k = Some rc ->
     denotes (length (recs b')) i' k' -> nth_error (recs b') k' = Some rc' ->
     (forall m, In m ms -> 0 <= m < 24 /\ 0 <= g m < 24) ->
     let mlts l := mkArr false false true (map Some l) in
     exists c c' lats,
       get_aacgm_boundary_lat b None (mlts ms) (Some [i]) true = (c, None, map Some ms) /\
       get_aacgm_boundary_lat b' None (mlts (map g ms)) (Some [i']) true = (c', None, map Some (map g ms)) /\
       nth_error c k = Some (Some (lats, map Some ms)) /\
       nth_error c' k' = Some (Some (lats, map Some (map g ms)))).

Lemma wrap_in l : (forall m, In m l -> 0 <= m < 24) -> map wrap_once (map Some l) = map Some l.
Proof.
  intros H. rewrite map_map. apply map_ext_in. intros m I. specialize (H m I). unfold wrap_once.
  destruct (Rlt_dec m 0); [lra|]. destruct (Rle_dec 24 m); [lra|reflexivity].
Qed.

Lemma follows_iso f g b b' rc rc' :
  config_ok (hemi b) (blat b) -> alike b b' -> selected b rc -> selected b' rc' ->
  (forall d m, point d (g m) = app f (point d m)) -> centre rc' = app f (centre rc) -> rr rc' = rr rc ->
  (forall m, rfun rc' (Some (g m)) = rfun rc (Some m)) -> follows g b b' rc rc'.
Proof.
  intros Hc [Ah Ab] Hs Hs' Pg Pc Pr Pf. destruct (config_abs _ _ Hc) as [C1 [C2 C3]]. pose proof (proj1 Hc) as Hh.
  pose proof (proj2 (current_selected b rc) Hs) as Cu. pose proof (proj2 (current_selected b' rc') Hs') as Cu'.
  split; [|split].
  - intros lat mlt c Hl Hf Hr.
    destruct (normal_pt_iso f g rc rc' Pg Pc Pr Pf (hemi b) (blat b) lat mlt c Hf Hr ltac:(lra)) as (ol & om & om' & E & E' & _ & B & S).
    destruct (normal_coord_sc b (Some lat) (Some mlt)) as [l [m [cc [N K]]]].
    destruct (normal_coord_sc b' (Some lat) (Some (g mlt))) as [l' [m' [cc' [N' K']]]].
    rewrite Cu, (inside_right _ _ Hh Hl), E, Hf in K. destruct K as [K ->]. injection K as <- <-.
    rewrite Cu', Ah, Ab, (inside_right _ _ Hh Hl), E', Pf, Hf in K'. destruct K' as [K' ->]. injection K' as <- <-.
    exists ol, om, om'. eexists _, _. split; [exact N|]. split; [exact N'|]. split; [exact B|exact S].
  - intros olat omlt c Hl.
    destruct (revert_pt_iso f g rc rc' Pg Pc Pr (hemi b) (blat b) olat omlt c ltac:(lra)) as (al & am & am' & E & E' & _ & B & S).
    destruct (revert_coord_sc b (Some olat) (Some omlt) (Some c)) as [l [m [N K]]].
    destruct (revert_coord_sc b' (Some olat) (Some (g omlt)) (Some c)) as [l' [m' [N' K']]].
    rewrite Cu, (inside_right _ _ Hh Hl), E in K. injection K as <- <-.
    rewrite Cu', Ah, Ab, (inside_right _ _ Hh Hl), E' in K'. injection K' as <- <-.
    exists al, am, am'. split; [exact N|]. split; [exact N'|]. split; [exact B|exact (S Hh)].
  - intros i k i' k' ms D N D' N' IN mlts.
    destruct (get_lat_at b None (map Some ms) i k rc D N I) as [c [E [_ [Nc _]]]].
    destruct (get_lat_at b' None (map Some (map g ms)) i' k' rc' D' N' I) as [c' [E' [_ [Nc' _]]]].
    rewrite wrap_in in E, Nc by (intros m Hm; apply (IN m Hm)).
    rewrite wrap_in in E', Nc' by (intros m Hm; apply in_map_iff in Hm; destruct Hm as [x [<- Hx]]; apply (IN x Hx)).
    exists c, c', (lats_of (hemi b) rc (map Some ms)). split; [exact E|]. split; [exact E'|]. split; [exact Nc|].
    rewrite Nc', Ah. do 3 f_equal.
    assert (Q : mapE (boundary_pt (hemi b) rc') (map Some (map g ms)) = mapE (boundary_pt (hemi b) rc) (map Some ms)).
    { clear - Pg Pc Pr Pf Hh. induction ms as [|m ms IH]; [reflexivity|]. cbn [map mapE].
      rewrite IH, (boundary_pt_iso f g rc rc' Pg Pc Pr Pf (hemi b) m Hh). reflexivity. }
    unfold lats_of. now rewrite Q.
Qed.

Theorem C162_turned :
  forall b b' rc rc' a,
    config_ok (hemi b) (blat b) -> alike b b' -> selected b rc -> selected b' rc' -> turned a rc rc' ->
    follows (fun m => m + a) b b' rc rc'.
Proof.
  intros b b' rc rc' a Hc A Hs Hs' T. apply (follows_iso (turn a)); try assumption.
  - intros; apply point_turn.
  - now apply centre_turn.
  - apply T.
  - apply (t_f _ _ _ T).
Qed.

Theorem C162_dawn_and_dusk :
  forall b b' rc rc',
    config_ok (hemi b) (blat b) -> alike b b' -> selected b rc -> selected b' rc' -> swapped rc rc' ->
    follows Ropp b b' rc rc'.
Proof.
  intros b b' rc rc' Hc A Hs Hs' T. apply (follows_iso swap); try assumption.
  - intros; apply point_swap.
  - now apply centre_swap.
  - apply T.
  - apply (s_f _ _ T).
Qed.

(** A boundary centred towards dawn instead of midnight, with a correction that
    depends on local time: 66 degrees at 06 MLT has the latitude that 66 degrees at
    midnight has relative to the boundary centred towards midnight. *)
Definition rec_m : rec := mkRec 18 4 0 (fun m => fmap (fun x => cos (x * PI / 12)) m).
Definition rec_d : rec := mkRec 18 4 90 (fun m => fmap (fun x => cos ((x - 6) * PI / 12)) m).
Example C162_case : exists olat o1 o2 a1 a2,
  normal_coord (mkBnd 1 74 [rec_m] 0) (sc (Some 66)) (sc (Some 1)) =
    Ok (out true [Some olat], out true [Some o1], out true [Some (cos (1 * PI / 12))], a1) /\
  normal_coord (mkBnd 1 74 [rec_d] 0) (sc (Some 66)) (sc (Some (1 + 6))) =
    Ok (out true [Some olat], out true [Some o2], out true [Some (cos (1 * PI / 12))], a2).
Proof.
  assert (T : turned 6 rec_m rec_d).
  { split; try reflexivity; [cbn; lra|]. intros m. cbn. do 3 f_equal. lra. }
  destruct (C162_turned (mkBnd 1 74 [rec_m] 0) (mkBnd 1 74 [rec_d] 0) rec_m rec_d 6) as [F _]; try assumption.
  - split; [now left|cbn; lra].
  - split; reflexivity.
  - split; [cbn; lia|reflexivity].
  - split; [cbn; lia|reflexivity].
  - destruct (F 66 1 (cos (1 * PI / 12))) as (ol & o1 & o2 & a1 & a2 & E1 & E2 & _).
    + unfold in_hemisphere; cbn; lra.
    + reflexivity.
    + cbn. pose proof (COS_bound (1 * PI / 12)). lra.
    + exists ol, o1, o2, a1, a2. split; assumption.
Qed.
Print Assumptions C162_turned.
Print Assumptions C162_dawn_and_dusk.
