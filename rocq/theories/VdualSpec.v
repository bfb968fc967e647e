(** Independent vocabulary for vectors normalised with two boundaries. *)
From Coq Require Import Reals ZArith List.
From Verif Require Import PyBase RangeModel CoordModel CoordSpec DualCoordModel DualCoordSpec ScalingModel ScalingSpec.
Import ListNotations.
Open Scope R_scope.

(** Pair [k] of the dual boundary is record [io], [orc], of the open-closed boundary and
    [ie], [erc], of the equatorward one. *)
Record pair_at (d : dualc) (k io ie : Z) (orc erc : rec) : Prop := mkPairAt {
  pa_range : (0 <= k < d_n d)%Z;
  pa_oi : nth_error (d_oi d) (Z.to_nat k) = Some io;
  pa_ei : nth_error (d_ei d) (Z.to_nat k) = Some ie;
  pa_o : (0 <= io)%Z /\ nth_error (recs (d_o d)) (Z.to_nat io) = Some orc;
  pa_e : (0 <= ie)%Z /\ nth_error (recs (d_e d)) (Z.to_nat ie) = Some erc;
  pa_h : hemi (d_e d) = hemi (d_o d);
  pa_so : stores_fit (d_o d) (d_os d);
  pa_se : stores_fit (d_e d) (d_es d) }.

(** The dual boundary is at one of its pairs (counted from either end). *)
Definition dual_loaded (d : dualc) : Prop :=
  (- Z.of_nat (length (d_oi d)) <= d_rec d < Z.of_nat (length (d_oi d)))%Z.

(** A vector in the hemisphere of the boundaries, not at the pole; both boundaries of the
    pair cross its meridian, the open-closed boundary (at colatitude [ro]) poleward of
    the other ([re]); and the centre of the open-closed boundary is not beyond the
    equator. *)
Record sited (d : dualc) (orc erc : rec) (w : datum) (ro re : R) : Prop := mkSited {
  si_lat : 0 < IZR (hemi (d_o d)) * g_lat w < 90;
  si_mlt : mlt_ok orc erc (g_lt w);
  si_rad : radius_pos orc (g_lt w);
  si_o : boundary_at orc (g_lt w) ro;
  si_e : boundary_at erc (g_lt w) re;
  si_re : ro < re < 90;
  si_cent : 0 <= rcent orc < 90 }.

(** It lies in the polar cap, between the boundaries or equatorward of both. *)
Definition in_cap (d : dualc) (orc : rec) (w : datum) (ro : R) : Prop :=
  colat (hemi (d_o d)) (g_lat w) <= ro /\ inside orc (g_lt w) (colat (hemi (d_o d)) (g_lat w)).
Definition in_region (d : dualc) (orc : rec) (w : datum) (ro : R) : Prop :=
  in_cap d orc w ro \/ ro < colat (hemi (d_o d)) (g_lat w).

(** Two normalised vectors that differ at most in the latitude. *)
Definition same_but_latitude (v w : vel) : Prop :=
  location v = location w /\ components v = components w /\ radii v = radii w /\
  normalised v = normalised w /\ w_omag v = w_omag w /\ w_omlt v = w_omlt w /\ w_rc v = w_rc w.

(** A vector, the pair it is normalised with and the record of the open-closed boundary in
    that pair, fit for a normalisation. *)
Definition fit (d : dualc) (q : Z * Z * datum) : Prop :=
  exists ie orc erc ro re, pair_at d (fst (fst q)) (snd (fst q)) ie orc erc /\
    sited d orc erc (snd q) ro re /\ in_region d orc (snd q) ro.

(** Every pair is made of records of the two boundaries, and the stored boundaries fit. *)
Definition dual_wf (d : dualc) : Prop :=
  (forall k, (0 <= k < d_n d)%Z -> exists io ie orc erc, pair_at d k io ie orc erc) /\
  stores_fit (d_o d) (d_os d) /\ stores_fit (d_e d) (d_es d).

(** The same boundaries and pairs, whatever the selected records and what is stored. *)
Definition same_pairs (d d' : dualc) : Prop :=
  hemi (d_o d') = hemi (d_o d) /\ blat (d_o d') = blat (d_o d) /\ recs (d_o d') = recs (d_o d) /\
  hemi (d_e d') = hemi (d_e d) /\ blat (d_e d') = blat (d_e d) /\ recs (d_e d') = recs (d_e d) /\
  d_oi d' = d_oi d /\ d_ei d' = d_ei d /\ d_n d' = d_n d.

(** The latitude [normal_coord] gives when the dual boundary is at pair [k]. *)
Definition dual_latitude (d : dualc) (k : Z) (w : datum) (x : R) : Prop :=
  exists d1 d2 BL M L C, set_rec d k = Ok d1 /\
    dual_normal d1 (sc (Some (g_lat w))) (sc (Some (g_lt w))) false = (d2, Ok (BL, M, L, C)) /\ el BL = [Some x].

(** Poleward of the open-closed boundary on its meridian and yet outside the circle, by
    less than the part of the sphere [normal_coord] maps to the other pole's cap. *)
Definition misses_circle (d : dualc) (orc : rec) (w : datum) (ro : R) : Prop :=
  colat (hemi (d_o d)) (g_lat w) <= ro /\
  exists c, rfun orc (Some (g_lt w)) = Some c /\
    rr orc + c < dist (point (colat (hemi (d_o d)) (g_lat w)) (g_lt w)) (centre orc) /\
    dist (point (colat (hemi (d_o d)) (g_lat w)) (g_lt w)) (centre orc) * (90 - Rabs (blat (d_o d))) <
      (90 + Rabs (blat (d_o d))) * (rr orc + c).
