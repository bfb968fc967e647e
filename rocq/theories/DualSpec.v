(** Specification vocabulary for paired boundaries. *)
From Coq Require Import String ZArith QArith List Bool Sorted.
From Verif Require Import PyBase CycleModel CycleSpec DualModel.
Import ListNotations.
Open Scope string_scope.
Open Scope list_scope.
Open Scope Z_scope.

(** OCB record [io] and EAB record [ie] may be paired: both good, and their
    times at most [delta] microseconds apart. *)
Definition pairable (o e : boundary) (omn omx emn emx : option num)
  (oks eks : list crit) (delta io ie : Z) : Prop :=
  good_record o omn omx oks io /\ good_record e emn emx eks ie /\
  Z.abs (tm (b_dtime o) io - tm (b_dtime e) ie) <= delta.

(** Good records of [b] are pairwise more than [gap] apart in time. *)
Definition spaced (b : boundary) (mn mx : option num) (ks : list crit) (gap : Z) : Prop :=
  forall i j, good_record b mn mx ks i -> good_record b mn mx ks j -> i <> j ->
    gap < Z.abs (tm (b_dtime b) i - tm (b_dtime b) j).

(** Index lists of a dual object fit its record count. *)
Definition wf_dual (d : dual) : Prop :=
  d_records d = zlen (d_dtime d) /\
  zlen (d_ocb_ind d) = d_records d /\ zlen (d_eab_ind d) = d_records d.

(** Both component cursors are at the paired records of the dual cursor, or
    both undefined with it. *)
Definition in_step (d : dual) : Prop :=
  exists r, d_rec d = Some r /\ r <= d_records d /\
    ((r < 0 /\ b_rec_ind (d_ocb d) = r /\ b_rec_ind (d_eab d) = r) \/
     (0 <= r < d_records d /\
        nth_error (d_ocb_ind d) (Z.to_nat r) = Some (b_rec_ind (d_ocb d)) /\
        nth_error (d_eab_ind d) (Z.to_nat r) = Some (b_rec_ind (d_eab d))) \/
     (0 <= r /\ r = d_records d /\
        b_rec_ind (d_ocb d) = b_records (d_ocb d) /\
        b_rec_ind (d_eab d) = b_records (d_eab d))).

(** The boundaries and pairs are untouched; only cursors may differ. *)
Definition same_pairs (d d' : dual) : Prop :=
  same_data (d_ocb d) (d_ocb d') /\ same_data (d_eab d) (d_eab d') /\
  d_loaded d' = d_loaded d /\ d_max_delta d' = d_max_delta d /\
  d_records d' = d_records d /\ d_dtime d' = d_dtime d /\
  d_ocb_ind d' = d_ocb_ind d /\ d_eab_ind d' = d_eab_ind d.

(** [n] calls of get_next_good_ind. *)
Fixpoint cycle_n (n : nat) (d : dual) : res dual :=
  match n with
  | O => Ok d
  | S k => d' <- dual_get_next_good_ind d ;; cycle_n k d'
  end.
