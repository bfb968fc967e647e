(** Model of the processing loops that pair measurements with boundaries:
    ocbpy/instruments/vort.py [vort2ascii_ocb] lines 171-211,
    ocbpy/instruments/supermag.py [supermag2ascii_ocb] lines 147-202 and
    ocbpy/instruments/pysat_instruments.py [add_ocb_to_data] lines 435-442
    and 542.

    What is kept of one pass of a loop is the pair (data index, boundary record
    index) it processes; the coordinate conversion and scaling applied to each
    pair are modelled elsewhere.  The pair list is therefore the list of output
    lines (vort, SuperMAG) or of filled samples (pysat). *)
From Coq Require Import String ZArith QArith List Bool.
From Verif Require Import PyBase CycleModel.
Import ListNotations.
Open Scope string_scope.
Open Scope list_scope.
Open Scope Z_scope.

Section Driver.
  (** The boundary object: its record count, its cursor, and match_data_ocb
      applied to it and the data times with the loop's keyword arguments. *)
  Variable obj : Type.
  Variable records rec_ind : obj -> Z.
  Variable mtch : obj -> Z -> res (option Z * obj).
  Variable dat : list Z.

  (** vort.py:176-211: [while ivort < num_vort and ocb.rec_ind < ocb.records].
      Line 181, [ivort < num_vort], is a TypeError when match_data_ocb returned
      None.  pysat_instruments.py:435-542 is the same loop with [dat] the times
      of the accepted samples without repetition ([pysat_inst.index[uind]]). *)
  Fixpoint vort_loop (fuel : nat) (b : obj) (i : Z) : res (list (Z * Z)) :=
    if (i <? zlen dat) && (rec_ind b <? records b) then
      match fuel with
      | O => Err OutOfFuel
      | S f =>
          '(o, b') <- mtch b i ;;
          match o with
          | None => Err TypeError
          | Some i' =>
              if (i' <? zlen dat) && (rec_ind b' <? records b') then
                rest <- vort_loop f b' (i' + 1) ;;
                Ok ((i', rec_ind b') :: rest)
              else vort_loop f b' i'
          end
      end
    else Ok [].

  (** supermag.py:159 [np.where(DATETIME == DATETIME[imag])]. *)
  Definition same_time (i : Z) : list Z :=
    match py_get dat i with
    | None => []
    | Some d =>
        filter (fun k => match py_get dat k with
                         | Some d' => d' =? d | None => false end)
               (map Z.of_nat (seq 0 (length dat)))
    end.

  (** supermag.py:151-202: every measurement of the matched time is written
      with the matched record, then [imag = itime[0][-1] + 1]. *)
  Fixpoint supermag_loop (fuel : nat) (b : obj) (i : Z) : res (list (Z * Z)) :=
    if (i <? zlen dat) && (rec_ind b <? records b) then
      match fuel with
      | O => Err OutOfFuel
      | S f =>
          '(o, b') <- mtch b i ;;
          match o with
          | None => Err TypeError
          | Some i' =>
              if (i' <? zlen dat) && (rec_ind b' <? records b') then
                let itime := same_time i' in
                rest <- supermag_loop f b' (last itime 0 + 1) ;;
                Ok (map (fun k => (k, rec_ind b')) itime ++ rest)
              else supermag_loop f b' i'
          end
      end
    else Ok [].
End Driver.

(** vort.py:176-211 for an OCBoundary or EABoundary; the fuel bounds the number
    of passes, each of which consumes at least one measurement. *)
Definition vort_pairs (b : boundary) (dat : list Z) (max_sdiff : Z)
  (mn mx : option num) (ks : list crit) : res (list (Z * Z)) :=
  vort_loop boundary b_records b_rec_ind
    (fun b i => match_data_ocb b dat i max_sdiff mn mx ks) dat
    (S (length dat)) b 0.

(** supermag.py:151-202 likewise. *)
Definition supermag_pairs (b : boundary) (dat : list Z) (max_sdiff : Z)
  (mn mx : option num) (ks : list crit) : res (list (Z * Z)) :=
  supermag_loop boundary b_records b_rec_ind
    (fun b i => match_data_ocb b dat i max_sdiff mn mx ks) dat
    (S (length dat)) b 0.
