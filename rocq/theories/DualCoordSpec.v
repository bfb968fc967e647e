(** Independent vocabulary for the dual-boundary coordinates. *)
From Coq Require Import Reals ZArith List.
From Verif Require Import PyBase RangeModel RangeSpec CoordModel CoordSpec DualCoordModel.
Import ListNotations.
Open Scope R_scope.

(** The dual boundary is at one of its pairs, and that pair is the records [orc]
    and [erc] that the two boundaries themselves are at. *)
Definition stores_fit (b : bnd) (s : option cache) : Prop :=
  match s with None => True | Some c => length c = length (recs b) end.
Record paired (d : dualc) (orc erc : rec) : Prop := mkPaired {
  p_range : (0 <= d_rec d < d_n d)%Z;
  p_oi : nth_error (d_oi d) (Z.to_nat (d_rec d)) = Some (rind (d_o d));
  p_ei : nth_error (d_ei d) (Z.to_nat (d_rec d)) = Some (rind (d_e d));
  p_o : selected (d_o d) orc;
  p_e : selected (d_e d) erc;
  p_h : hemi (d_e d) = hemi (d_o d);
  p_so : stores_fit (d_o d) (d_os d);
  p_se : stores_fit (d_e d) (d_es d) }.

(** Reference latitudes in the hemisphere, the OCB's poleward. *)
Definition dual_config (d : dualc) : Prop :=
  let h := IZR (hemi (d_o d)) in
  (hemi (d_o d) = 1%Z \/ hemi (d_o d) = (-1)%Z) /\ hemi (d_e d) = hemi (d_o d) /\
  0 < h * blat (d_e d) /\ h * blat (d_e d) < h * blat (d_o d) < 90.

(** The boundary of record [rc], corrected at [mlt], lies at colatitude [rho] on
    the meridian [mlt]: there it meets the circle furthest from the pole. *)
Definition boundary_at (rc : rec) (mlt rho : R) : Prop :=
  exists c, rfun rc (Some mlt) = Some c /\ meets rc mlt (rr rc + c) rho /\
    forall rho', meets rc mlt (rr rc + c) rho' -> rho' <= rho.
(** On or inside the corrected boundary circle. *)
Definition inside (rc : rec) (mlt rho : R) : Prop :=
  exists c, rfun rc (Some mlt) = Some c /\ dist (point rho mlt) (centre rc) <= rr rc + c.
(** The corrected radius is a positive number. *)
Definition radius_pos (rc : rec) (mlt : R) : Prop :=
  exists c, rfun rc (Some mlt) = Some c /\ 0 < rr rc + c.

(** Local time in [0, 24), or corrections that depend on it modulo 24 only. *)
Definition mlt_ok (orc erc : rec) (mlt : R) : Prop :=
  0 <= mlt < 24 \/
  forall m, shifted 24 mlt m -> rfun orc (Some m) = rfun orc (Some mlt) /\
                                rfun erc (Some m) = rfun erc (Some mlt).

(** Floating arguments that dual normal_coord accepts, as [n] points. *)
Definition dual_args (lat lt : arr) (n : nat) : Prop :=
  isint lat = false /\ isint lt = false /\ wf_arr lat /\ wf_arr lt /\
  match is0d lat, is0d lt with
  | true, true => n = 1%nat
  | true, false => n = length (el lt)
  | false, true => n = length (el lat)
  | false, false => n = length (el lat) /\ n = length (el lt)
  end.

(** Everything that was stored is still stored. *)
Definition store_kept (s s' : option cache) : Prop :=
  forall c k x, s = Some c -> nth_error c k = Some (Some x) ->
    exists c', s' = Some c' /\ nth_error c' k = Some (Some x).
Definition stores_kept (d d' : dualc) : Prop :=
  store_kept (d_os d) (d_os d') /\ store_kept (d_es d) (d_es d').
