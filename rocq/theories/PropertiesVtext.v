(** C141: the representation of VectorData. *)
From Coq Require Import String Ascii Reals ZArith List Bool Lia Lra PeanoNat.
From Verif Require Import PyBase PyString RangeModel CoordModel DualCoordModel VectorModel ScalingModel LocModel VdataModel VdataSpec VdataProofs
  VtextModel VtextSpec VtextProofs.
Import ListNotations.
Open Scope list_scope.

Lemma coords_again loc vec l v : test_coords loc vec = Ok (l, v) -> test_coords l v = Ok (l, v) /\ plain l /\ plain v.
Proof.
  unfold test_coords, good_coords, str_in. cbn [existsb]. set (ll := lower loc). set (vv := lower vec).
  destruct (String.eqb_spec ll "magnetic") as [->|N1]; [|destruct (String.eqb_spec ll "geocentric") as [->|N2]; [|destruct (String.eqb_spec ll "geodetic") as [->|N3]; [|discriminate]]];
  (destruct (String.eqb_spec vv "magnetic") as [->|M1]; [|destruct (String.eqb_spec vv "geocentric") as [->|M2]; [|destruct (String.eqb_spec vv "geodetic") as [->|M3]; [|discriminate]]]);
  cbn; intros E; try discriminate E; injection E as <- <-; repeat split.
Qed.

Section Repr.
Context {G : Type} (gtext : G -> string) (geval : string -> res G) (readz : av Z -> res (av Z)) (reads : av fl -> res (av fl)).
Notation repr := (vrepr gtext).
Notation evaluated := (veval geval readz reads).
(** The texts of the numbers say what they are, as does that of the function. *)
Definition read_back (v : vdata) : Prop :=
  readz (d_ind v) = Ok (d_ind v) /\ readz (o_ind v) = Ok (o_ind v) /\
  Forall (fun x => reads x = Ok x) [d_lat v; d_lt v; d_h v; o_lat v; o_mlt v; o_rc v; d_n v; d_e v; d_z v; d_mag v].
Definition function_back (w : labels (G := G)) : Prop :=
  match lb_func w with None => True | Some g => plain (gtext g) /\ geval (gtext g) = Ok g end.

(** Evaluating the representation gives the same object without the results, also when
    the boundary coordinates have been set since. *)
Theorem C141_evaluates_partial :
  (* missing: the word "array" in a name (C141_name_refuted), numbers that numpy shortens
     (C141_digits_refuted), values that are NaN (C141_nan_refuted), a magnitude of another
     shape (C141_magnitude_refuted); the results (C141_results_refuted) *)
  forall dat ocb lat lt h loc olat omlt rc n e z mag vec name units func w v a b c out,
    vinit dat ocb lat lt h loc olat omlt rc n e z mag vec name units func = Ok (w, v) ->
    like a b -> like a c -> scalar_value ocb \/ like a ocb ->
    let now := with_out (with_coords v a b c) out in
    read_back now -> function_back w -> plain_opt name -> plain_opt units ->
    like (d_mag v) dat \/ scalar_value (d_mag v) /\ a_number (d_mag v) ->
    evaluated (repr w now) = Ok (w, with_coords v a b c).
Proof.
  intros dat ocb lat lt h loc olat omlt rc n e z mag vec name units func w v a b c out I AB AC AO now (RD & RO & RF) FB PN PU M.
  unfold vinit in I. destruct (construct dat ocb lat lt h n e z mag olat omlt rc) as [v'|] eqn:C; cbn [bind] in I; [|discriminate].
  destruct (test_coords loc vec) as [[l p]|] eqn:T; cbn [bind] in I; [|discriminate]. injection I as <- ->. cbn [fst snd] in *.
  destruct (coords_again _ _ _ _ T) as (T' & PL & PV).
  assert (DI : d_ind v = dat /\ o_ind v = ocb) by (apply construct_ok in C; tauto). destruct DI as [DI OI].
  repeat match type of RF with Forall _ (_ :: _) => let H := fresh "R" in apply Forall_cons_iff in RF; destruct RF as [H RF] end.
  subst now. cbn [with_out with_coords d_ind o_ind d_lat d_lt d_h d_n d_e d_z d_mag o_lat o_mlt o_rc] in *.
  unfold veval, vrepr. cbn [k_dat k_ocb k_lat k_lt k_h k_loc k_olat k_omlt k_rc k_n k_e k_z k_mag k_vec k_name k_units k_func with_out with_coords
    d_ind o_ind d_lat d_lt d_h d_n d_e d_z d_mag o_lat o_mlt o_rc lb_name lb_units lb_loc lb_vec lb_func].
  repeat match goal with H : readz ?x = _ |- context [readz ?x] => rewrite H; cbn [bind] end.
  repeat match goal with H : reads ?x = _ |- context [reads ?x] => rewrite H; cbn [bind] end.
  unfold function_back in FB. cbn [lb_func] in FB.
  assert (FE : (match option_map (fun g => replaced (gtext g)) func with None => Ok None | Some s => g <- geval s ;; Ok (Some g) end) = Ok func).
  { destruct func as [g|]; cbn [option_map]; [|reflexivity]. destruct FB as [P Q]. rewrite replaced_plain by exact P. rewrite Q. reflexivity. }
  rewrite FE. cbn [bind]. unfold vinit. rewrite (construct_again _ _ _ _ _ _ _ _ _ _ _ _ _ a b c C); [|rewrite DI; exact M|exact AB|exact AC|rewrite OI; exact AO].
  cbn [bind]. rewrite (replaced_plain l PL), (replaced_plain p PV), T'. cbn [bind fst snd]. rewrite !replaced_opt by assumption. reflexivity.
Qed.

(** NaN is written as a name: an object without boundary coordinates cannot be evaluated
    where the name is unknown. *)
Theorem C141_nan_refuted : (forall x, has_nan x -> reads x = Err NameError) -> (forall x, ~ has_nan x -> reads x = Ok x) -> (forall x, readz x = Ok x) ->
  exists w v, vinit (G := G) (Sc 0%Z) (Sc 0%Z) (Sc (Some 75%R)) (Sc (Some 22%R)) (Sc (Some 350%R)) "magnetic" (Sc None) (Sc None) (Sc None)
      (Sc (Some 1%R)) (Sc (Some 0%R)) (Sc (Some 0%R)) (Sc None) "magnetic" None None None = Ok (w, v) /\
    evaluated (repr w v) = Err NameError.
Proof.
  intros N P Z. assert (P' : forall x, reads (Sc (Some x)) = Ok (Sc (Some x))) by (intros x; apply P; intros [i X]; discriminate X).
  eexists. eexists. split; [unfold vinit; lazy -[sqrt pow Rplus Rmult IZR not]; reflexivity|].
  unfold veval, vrepr. cbn [k_dat k_ocb k_lat k_lt k_h k_olat d_ind o_ind d_lat d_lt d_h o_lat]. rewrite !Z, !P'. cbn [bind]. rewrite N; [reflexivity|]. exists 0%nat. reflexivity.
Qed.
(** Numbers are written with eight decimals. *)
Theorem C141_digits_refuted : (forall x y, reads x = Ok y -> eight_decimals y) ->
  exists w v, vinit (G := G) (Sc 0%Z) (Sc 0%Z) (Sc (Some (75 + 1 / 3)%R)) (Sc (Some 22%R)) (Sc (Some 350%R)) "magnetic" (Sc (Some 80%R)) (Sc (Some 1%R)) (Sc (Some 0%R))
      (Sc (Some 1%R)) (Sc (Some 0%R)) (Sc (Some 0%R)) (Sc (Some 1%R)) "magnetic" None None None = Ok (w, v) /\
    forall w' v', evaluated (repr w v) = Ok (w', v') -> d_lat v' <> d_lat v.
Proof.
  intros ED. set (x := (75 + 1 / 3)%R). eexists. eexists. split; [unfold vinit; lazy -[sqrt pow Rplus Rmult IZR not x]; reflexivity|].
  intros w' v' E. unfold veval, vrepr in E.
  cbn [k_dat k_ocb k_lat k_lt k_h k_loc k_olat k_omlt k_rc k_n k_e k_z k_mag k_vec k_name k_units k_func d_ind o_ind d_lat d_lt d_h d_n d_e d_z d_mag o_lat o_mlt o_rc
    lb_name lb_units lb_loc lb_vec lb_func option_map] in E.
  destruct (readz (Sc 0%Z)) as [dat|]; cbn [bind] in E; [|discriminate].
  destruct (reads (Sc (Some x))) as [y|] eqn:Y; cbn [bind] in E; [|discriminate]. apply ED in Y.
  repeat (match type of E with bind (reads ?u) _ = _ => destruct (reads u); cbn [bind] in E; [|discriminate] end).
  unfold vinit in E. match type of E with bind ?u _ = _ => destruct u as [v1|] eqn:C; cbn [bind] in E; [|discriminate] end.
  match type of E with bind ?u _ = _ => destruct u as [c|]; cbn [bind] in E; [|discriminate] end. injection E as _ <-.
  apply construct_ok in C. destruct C as (_ & _ & L & _). cbn [d_lat]. rewrite L. intros X.
  assert (Q : exists i, at_ y i = Some (Some x)).
  { destruct y as [q|q]; [|discriminate X]. cbn in X. destruct dat as [d|d]; cbn in X; [|discriminate X]. injection X as ->. exists 0%nat. reflexivity. }
  destruct Q as [i Q]. destruct (Y i x Q) as [k K]. subst x.
  assert (W : IZR (3 * k) = IZR 22600000000) by (rewrite mult_IZR; lra). apply eq_IZR in W. lia.
Qed.
End Repr.

Definition reads_all (x : av fl) : res (av fl) := Ok x.
Definition readz_all (x : av Z) : res (av Z) := Ok x.
Definition no_func (s : string) : res unit := Err NameError.
(** A name with the word "array" in it becomes another one. *)
Theorem C141_name_refuted : exists w v w' v', vinit (G := unit) (Sc 0%Z) (Sc 0%Z) (Sc (Some 75%R)) (Sc (Some 22%R)) (Sc (Some 350%R)) "magnetic" (Sc None) (Sc None) (Sc None)
      (Sc (Some 1%R)) (Sc (Some 0%R)) (Sc (Some 0%R)) (Sc None) "magnetic" (Some "Antenna array"%string) None None = Ok (w, v) /\
    veval no_func readz_all reads_all (vrepr (fun _ => ""%string) w v) = Ok (w', v') /\ lb_name w' = Some "Antenna numpy.array"%string.
Proof.
  eexists. eexists. eexists. eexists. split; [unfold vinit; lazy -[sqrt pow Rplus Rmult IZR not]; reflexivity|].
  assert (NAN : forall q, isnan (Some (sqrt q)) = false) by reflexivity.
  split; [lazy -[sqrt pow Rplus Rmult IZR not]; reflexivity|reflexivity].
Qed.
(** An unknown magnitude of scalar components is repeated. *)
Theorem C141_magnitude_refuted : exists w v w' v', vinit (G := unit) (Ar [0; 1]%Z) (Sc 0%Z) (Sc (Some 75%R)) (Sc (Some 22%R)) (Sc (Some 350%R)) "magnetic" (Sc None) (Sc None) (Sc None)
      (Sc None) (Sc (Some 0%R)) (Sc (Some 0%R)) (Sc None) "magnetic" None None None = Ok (w, v) /\
    veval no_func readz_all reads_all (vrepr (fun _ => ""%string) w v) = Ok (w', v') /\ d_mag v = Sc None /\ d_mag v' = Ar [None; None].
Proof.
  eexists. eexists. eexists. eexists. split; [unfold vinit; lazy -[sqrt pow Rplus Rmult IZR not]; reflexivity|].
  split; [lazy -[sqrt pow Rplus Rmult IZR not]; reflexivity|split; reflexivity].
Qed.
(** The results of [set_ocb] are not written. *)
Theorem C141_results_refuted : forall out, exists w v w' v', vinit (G := unit) (Sc 0%Z) (Sc 0%Z) (Sc (Some 75%R)) (Sc (Some 22%R)) (Sc (Some 350%R)) "magnetic" (Sc None) (Sc None) (Sc None)
      (Sc (Some 1%R)) (Sc (Some 0%R)) (Sc (Some 0%R)) (Sc None) "magnetic" None None None = Ok (w, v) /\
    veval no_func readz_all reads_all (vrepr (fun _ => ""%string) w (with_out v out)) = Ok (w', v') /\ no_results (d_out v').
Proof.
  intros out. eexists. eexists. eexists. eexists. split; [unfold vinit; lazy -[sqrt pow Rplus Rmult IZR not]; reflexivity|].
  split; [lazy -[sqrt pow Rplus Rmult IZR not]; reflexivity|]. apply (cleared_none (Sc tt)).
Qed.
Example C141_case : exists w v, vinit (G := unit) (Ar [4; 7]%Z) (Sc 3%Z) (Ar [Some 75; Some 76]%R) (Sc (Some 22%R)) (Sc (Some 350%R)) "Geodetic" (Sc None) (Sc None) (Sc None)
      (Ar [Some 3; Some 0]%R) (Ar [Some 4; Some 0]%R) (Ar [Some 0; Some 2]%R) (Sc None) "magnetic" (Some "Swarm"%string) (Some "nT"%string) None = Ok (w, v) /\
    like (Ar [Some 80; Some 81]%R : av fl) (Ar [Some 1; Some 2]%R : av fl) /\ scalar_value (Sc 3%Z) /\
    read_back readz_all reads_all (with_out (with_coords v (Ar [Some 80; Some 81]%R) (Ar [Some 1; Some 2]%R) (Ar [Some 0; Some 0]%R)) (cleared [])) /\
    function_back (fun _ => ""%string) no_func w /\ plain_opt (Some "Swarm"%string) /\ like (d_mag v) (Ar [4; 7]%Z).
Proof.
  eexists. eexists. split; [unfold vinit; lazy -[sqrt pow Rplus Rmult IZR not]; reflexivity|]. split; [reflexivity|]. split; [exact I|].
  split; [split; [reflexivity|split; [reflexivity|apply Forall_forall; reflexivity]]|]. split; [exact I|]. split; reflexivity.
Qed.
Print Assumptions C141_evaluates_partial.
Print Assumptions C141_nan_refuted.
Print Assumptions C141_digits_refuted.
Print Assumptions C141_name_refuted.
Print Assumptions C141_magnitude_refuted.
Print Assumptions C141_results_refuted.
