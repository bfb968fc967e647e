(** Model of the cyclic-range routines of ocbpy/ocb_time.py over the reals:
    [fix_range] (lines 399-452), [deg2hr], [hr2deg], [hr2rad], [rad2hr],
    [datetime2hr], [slt2glon], [glon2slt] (lines 205-396).

    A float is a real number or NaN ([None]); rounding is not modelled here (see
    FloatModel.v for binary64).  The infinities are not modelled here either:
    FloatModel shows what fix_range does with them. *)
From Coq Require Import Reals ZArith List Bool.
From Verif Require Import PyBase.
Import ListNotations.
Open Scope R_scope.

Definition fl := option R.

Definition fmap (f : R -> R) (x : fl) : fl := option_map f x.
Definition fmap2 (f : R -> R -> R) (x y : fl) : fl :=
  match x, y with Some a, Some b => Some (f a b) | _, _ => None end.

(** ** Scalar fix_range *)

(** ocb_time.py:437-443, one element: subtract until below [mx]. *)
Fixpoint sub_loop (fuel : nat) (mx rng v : R) : res R :=
  if Rle_dec mx v then
    match fuel with O => Err OutOfFuel | S f => sub_loop f mx rng (v - rng) end
  else Ok v.

(** ocb_time.py:445-450, one element: add until not below [mn]. *)
Fixpoint add_loop (fuel : nat) (mn rng v : R) : res R :=
  if Rlt_dec v mn then
    match fuel with O => Err OutOfFuel | S f => add_loop f mn rng (v + rng) end
  else Ok v.

(** Enough passes for either loop (proved, not assumed, to be enough). *)
Definition passes_for (rng d : R) : nat := S (Z.to_nat (up (Rabs d / rng))).

(** ocb_time.py:423-433: argument checks; the effective value range. *)
Definition range_of (mn mx : R) (rng : option R) : res R :=
  if Rle_dec mx mn then Err ValueError
  else
    let r := match rng with Some r => r | None => mx - mn end in
    if Rle_dec r 0 then Err ValueError else Ok r.

(** ocb_time.py:399-452 for a scalar; NaN is never "bad" (lines 437-438, 445-446). *)
Definition fix_range (v : fl) (mn mx : R) (rng : option R) : res fl :=
  r <- range_of mn mx rng ;;
  match v with
  | None => Ok None
  | Some x =>
      y <- sub_loop (passes_for r (x - mx)) mx r x ;;
      z <- add_loop (passes_for r (y - mn)) mn r y ;;
      Ok (Some z)
  end.

(** ** Array fix_range: the loops as written, over the whole array *)

(** The masks [ibad]. *)
Definition over (mx : R) (v : fl) : bool :=
  match v with Some x => if Rle_dec mx x then true else false | None => false end.
Definition under (mn : R) (v : fl) : bool :=
  match v with Some x => if Rlt_dec x mn then true else false | None => false end.

(** One pass of [fixed_vals[ibad] -= val_range]. *)
Definition sub_pass (mx r : R) (l : list fl) : list fl :=
  map (fun v => if over mx v then fmap (fun x => x - r) v else v) l.
Definition add_pass (mn r : R) (l : list fl) : list fl :=
  map (fun v => if under mn v then fmap (fun x => x + r) v else v) l.

Fixpoint arr_sub (fuel : nat) (mx r : R) (l : list fl) : res (list fl) :=
  if existsb (over mx) l then
    match fuel with
    | O => Err OutOfFuel | S f => arr_sub f mx r (sub_pass mx r l)
    end
  else Ok l.
Fixpoint arr_add (fuel : nat) (mn r : R) (l : list fl) : res (list fl) :=
  if existsb (under mn) l then
    match fuel with
    | O => Err OutOfFuel | S f => arr_add f mn r (add_pass mn r l)
    end
  else Ok l.

Definition arr_passes (r b : R) (l : list fl) : nat :=
  fold_right (fun v n => Nat.max n (match v with
                                    | Some x => passes_for r (x - b)
                                    | None => O end)) O l.

(** ocb_time.py:399-452 for an array.  The second component is the caller's
    array after the call: [np.asarray] does not copy an ndarray, so the passes
    write into it; any other sequence is copied. *)
Definition fix_range_arr (ndarray : bool) (l : list fl) (mn mx : R)
  (rng : option R) : res (list fl * list fl) :=
  r <- range_of mn mx rng ;;
  l1 <- arr_sub (arr_passes r mx l) mx r l ;;
  l2 <- arr_add (arr_passes r mn l1) mn r l1 ;;
  Ok (l2, if ndarray then l2 else l).

(** ** Conversions (scalars; on arrays they act elementwise through numpy) *)

(** ocb_time.py:205-226. *)
Definition deg2hr (lon : fl) : res fl :=
  fix_range (fmap (fun x => x / 15) lon) 0 24 None.

(** ocb_time.py:229-268. *)
Definition hr2deg (lt : fl) (min_deg max_deg : R) : res fl :=
  let lon := fmap (fun x => x * 15) lt in
  let mn := if Rlt_dec (max_deg - min_deg) 360 then max_deg - 360 else min_deg in
  fix_range lon mn max_deg (Some 360).

(** ocb_time.py:271-295. *)
Definition hr2rad (lt : fl) (max_range : R) : res fl :=
  fix_range (fmap (fun x => x * PI / 12) lt) (max_range - 2 * PI) max_range None.

(** ocb_time.py:298-319. *)
Definition rad2hr (lon : fl) : res fl :=
  fix_range (fmap (fun x => x * 12 / PI) lon) 0 24 None.

(** ocb_time.py:322-340. *)
Definition datetime2hr (hour minute second microsecond : Z) : R :=
  IZR hour + IZR minute / 60 + (IZR second + IZR microsecond / 1000000) / 3600.

(** ocb_time.py:343-370; [uth] is datetime2hr of the time. *)
Definition slt2glon (slt : fl) (uth : R) : res fl :=
  g <- hr2deg (fmap (fun s => s - uth) slt) (-180) 360 ;;
  fix_range g (-180) 360 (Some 360).

(** ocb_time.py:373-396. *)
Definition glon2slt (glon : fl) (uth : R) : res fl :=
  s <- deg2hr glon ;;
  fix_range (fmap (fun x => x + uth) s) 0 24 None.
