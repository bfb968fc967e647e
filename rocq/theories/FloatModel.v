(** Model of [fix_range] (ocbpy/ocb_time.py:399-452) in IEEE binary64 arithmetic
    (round to nearest, ties to even), one element at a time.  The float type and
    its operations are Flocq's; NaN is one value.

    An array terminates exactly when each of its elements does (RangeModel shows
    the array loop is elementwise); only the scalar loop is modelled here. *)
From Coq Require Import ZArith Bool.
From Flocq Require Import Core BinarySingleNaN.
From Verif Require Import PyBase.

Definition f64 := binary_float 53 1024.
Definition prec53 : Prec_gt_0 53 := eq_refl.
Definition emax1024 : Prec_lt_emax 53 1024 := eq_refl.
Definition f64_add : f64 -> f64 -> f64 := @Bplus 53 1024 prec53 emax1024 mode_NE.
Definition f64_sub : f64 -> f64 -> f64 := @Bminus 53 1024 prec53 emax1024 mode_NE.
Definition f64_lt : f64 -> f64 -> bool := @Bltb 53 1024.
Definition f64_le : f64 -> f64 -> bool := @Bleb 53 1024.

(** ocb_time.py:437-443: [while v >= max_val: v -= val_range]; comparisons with
    NaN are false.  [Err OutOfFuel] means "not finished after [fuel] passes". *)
Fixpoint sub_loop_f (fuel : nat) (mx rng v : f64) : res f64 :=
  if f64_le mx v then
    match fuel with O => Err OutOfFuel | S f => sub_loop_f f mx rng (f64_sub v rng) end
  else Ok v.

(** ocb_time.py:445-450: [while v < min_val: v += val_range]. *)
Fixpoint add_loop_f (fuel : nat) (mn rng v : f64) : res f64 :=
  if f64_lt v mn then
    match fuel with O => Err OutOfFuel | S f => add_loop_f f mn rng (f64_add v rng) end
  else Ok v.

(** ocb_time.py:399-452 with [fuel] passes allowed for each loop. *)
Definition fix_range_f (fuel : nat) (v mn mx : f64) (rng : option f64) : res f64 :=
  if f64_le mx mn then Err ValueError
  else
    let r := match rng with Some r => r | None => f64_sub mx mn end in
    if f64_le r (B754_zero false) then Err ValueError
    else
      y <- sub_loop_f fuel mx r v ;;
      add_loop_f fuel mn r y.
