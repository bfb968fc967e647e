(** Model of ocbpy/boundaries/dmsp_ssj_files.py: [fetch_format_ssj_boundary_files] (433-489)
    with the names and the list returned by [format_ssj_boundary_files] (299-321, 428-431).

    The archive gives each of its files a content, a list of lines; extraction replaces
    files of the same name.  What is left of output files when formatting raises is not
    modelled. *)
From Coq Require Import String Ascii Reals ZArith QArith List Bool.
From Verif Require Import PyBase PyString TimeModel CycleModel RangeModel FilesModel OutputModel DmspModel SsjModel.
Import ListNotations.
Open Scope string_scope.
Open Scope list_scope.

(** Lines 299-300 and 316-321. *)
Definition suffix_of (h : Z) : str := if (h =? 1)%Z then s2l "north" else s2l "south".
Definition ext_of (b : bnd) : str := match b with PO => s2l ".ocb" | EQ => s2l ".eab" end.
(** Lines 428-431: the order of the list. *)
Definition kinds : list (Z * bnd) := [(1, PO); (1, EQ); (-1, PO); (-1, EQ)]%Z.
(** [os.path.join] with a directory that has no slash at its end. *)
Definition in_dir (dir n : str) : str := dir ++ s2l "/" ++ n.
Section Fetch.
Context (pf : str -> res num) (aacgm : num -> num -> Z -> fl * fl).
(** Lines 227-431: the files written, with their lines, in the order of the list. *)
Definition format_named (files : list (str * list str)) : res (list (str * list str)) :=
  names <- OutputModel.mapE (fun k => out_name (map fst files) (suffix_of (fst k)) (ext_of (snd k))) kinds ;;
  r <- format_ssj pf aacgm files ;;
  Ok (map (fun p => (fst p, file_of (fst (snd p)) (snd (snd p)) (fst r))) (combine names kinds)).
(** Lines 484-487: [os.remove] raises for a file that is gone. *)
Fixpoint remove_all (names fs : list str) : list str * res unit :=
  match names with
  | [] => (fs, Ok tt)
  | n :: t => if member n fs then remove_all t (remove n fs) else (fs, Err IOError)
  end.
(** Lines 470-489.  The result: the directory, the files written and the value. *)
Definition fetch_format (fuel : nat) (w : world) (dir : str) (dir_ok : bool) (dl : download) (zip : str -> list str) (content : str -> list str)
  (now : Z) (stime etime : option Z) (rm_temp : bool) : world * list (str * list str) * res (list str) :=
  match fetch fuel w dir_ok dl zip now stime etime None rm_temp with
  | (w1, Err e) => (w1, [], Err e)
  | (w1, Ok []) => (w1, [], Err ValueError)
  | (w1, Ok names) =>
      match format_named (map (fun n => (in_dir dir n, content n)) names) with
      | Err e => (w1, [], Err e)
      | Ok outs =>
          if rm_temp then
            match remove_all names (w_files w1) with
            | (fs, Ok _) => (mkWorld (w_stdout w1) fs, outs, Ok (map fst outs))
            | (fs, Err e) => (mkWorld (w_stdout w1) fs, outs, Err e)
            end
          else (w1, outs, Ok (map fst outs))
      end
  end.
End Fetch.
