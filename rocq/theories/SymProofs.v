(** Mirror symmetry between the hemispheres, function by function. *)
From Coq Require Import Reals ZArith List Bool Lia Lra.
From Verif Require Import PyBase RangeModel CoordModel CoordProofs2 DualCoordModel SymSpec.
Import ListNotations.
Open Scope R_scope.

Lemma opps_len l : length (opps l) = length l.
Proof. apply map_length. Qed.

Lemma sgn_opp x : sgn (- x) = (- sgn x)%Z.
Proof.
  unfold sgn. destruct (Rlt_dec 0 (- x)), (Rlt_dec 0 x), (Rlt_dec x 0), (Rlt_dec (- x) 0); try lra; reflexivity.
Qed.
Lemma wrong_opp h v : wrong_side (- h) (opp v) = wrong_side h v.
Proof.
  destruct v as [x|]; [|reflexivity]. cbn [opp wrong_side]. rewrite sgn_opp. f_equal.
  destruct (Z.eqb_spec (- sgn x) (- h)), (Z.eqb_spec (sgn x) h); try reflexivity; lia.
Qed.
Lemma exists_opp h l : existsb (wrong_side (- h)) (opps l) = existsb (wrong_side h) l.
Proof. induction l as [|v l IH]; [reflexivity|]. cbn. now rewrite wrong_opp, <- IH. Qed.
Lemma forall_opp h l : forallb (wrong_side (- h)) (opps l) = forallb (wrong_side h) l.
Proof. induction l as [|v l IH]; [reflexivity|]. cbn. now rewrite wrong_opp, <- IH. Qed.

Lemma fmap_opp (f g : R -> R) v : (forall x, g (- x) = f x) -> fmap g (opp v) = fmap f v.
Proof. intros H. destruct v; [|reflexivity]. cbn. now rewrite H. Qed.
Lemma fmap_out (f g : R -> R) v : (forall x, g x = - f x) -> fmap g v = opp (fmap f v).
Proof. intros H. destruct v; [|reflexivity]. cbn. now rewrite H. Qed.
Lemma fmap2_out (f g : R -> R -> R) v w : (forall x y, g x y = - f x y) -> fmap2 g v w = opp (fmap2 f v w).
Proof. intros H. destruct v, w; try reflexivity. cbn. now rewrite H. Qed.

Lemma opp_IZR' h x : IZR (- h) * - x = IZR h * x.
Proof. rewrite opp_IZR. ring. Qed.
Lemma opp_IZR'' h x : IZR (- h) * x = - (IZR h * x).
Proof. rewrite opp_IZR. ring. Qed.

Definition first_opp {A} (p : fl * A) : fl * A := (opp (fst p), snd p).

Lemma normal_pt_opp h bl rc lat mlt :
  normal_pt (- h) (- bl) rc (opp lat) mlt = and_then first_opp (normal_pt h bl rc lat mlt).
Proof.
  unfold normal_pt. rewrite Rabs_Ropp.
  rewrite (fmap_opp (fun l => 90 - IZR h * l)) by (intros; rewrite opp_IZR'; reflexivity).
  destruct (hr2rad mlt (2 * PI)) as [th|e]; [|reflexivity]. cbn [bind].
  rewrite (fmap2_out (fun x y => IZR h * (90 - sqrt (x ^ 2 + y ^ 2))) (fun x y => IZR (- h) * (90 - sqrt (x ^ 2 + y ^ 2)))) by (intros; apply opp_IZR'').
  match goal with |- bind ?t _ = _ => destruct t as [om|e] end; reflexivity.
Qed.
Lemma revert_pt_opp h bl rc olat omlt rcorr :
  revert_pt (- h) (- bl) rc (opp olat) omlt rcorr = and_then first_opp (revert_pt h bl rc olat omlt rcorr).
Proof.
  unfold revert_pt. rewrite opp_IZR'.
  rewrite (fmap_opp (fun l => 90 - IZR h * l)) by (intros; rewrite opp_IZR'; reflexivity).
  cbv zeta.
  rewrite (fmap2_out (fun x y => IZR h * (90 - sqrt (x ^ 2 + y ^ 2))) (fun x y => IZR (- h) * (90 - sqrt (x ^ 2 + y ^ 2)))) by (intros; apply opp_IZR'').
  match goal with |- bind ?t _ = _ => destruct t as [om|e] end; reflexivity.
Qed.
Lemma boundary_pt_opp h rc mlt : boundary_pt (- h) rc mlt = and_then opp (boundary_pt h rc mlt).
Proof.
  unfold boundary_pt. destruct (deg2hr _) as [pm|e]; [|reflexivity]. cbn [bind].
  destruct (hr2rad _ _) as [dm|e]; [|reflexivity]. cbn [bind and_then]. f_equal.
  apply fmap_out. intros. apply opp_IZR''.
Qed.

Lemma mapE_then {A A' B B'} (f : A -> res B) (f' : A' -> res B') (g : A -> A') (k : B -> B') l :
  (forall a, f' (g a) = and_then k (f a)) -> mapE f' (map g l) = and_then (map k) (mapE f l).
Proof.
  intros H. induction l as [|a l IH]; [reflexivity|]. cbn [map mapE]. rewrite H, IH.
  destruct (f a); [|reflexivity]. cbn [and_then bind]. destruct (mapE f l); reflexivity.
Qed.

Lemma bc2_map {A A' B} (g : A -> A') (a : list A) (b : list B) :
  bc2 (map g a) b = and_then (map (fun p => (g (fst p), snd p))) (bc2 a b).
Proof.
  assert (Q : forall a b, combine (map g a) b = map (fun p : A * B => (g (fst p), snd p)) (combine a b)).
  { induction a0 as [|x a0 IH]; intros [|y b0]; try reflexivity. cbn. now rewrite IH. }
  unfold bc2. destruct a as [|x [|x' a]]; cbn [map].
  - destruct b as [|y [|]]; reflexivity.
  - cbn. now rewrite map_map.
  - destruct b as [|y [|y' b]]; cbn [and_then].
    + reflexivity.
    + cbn. rewrite !map_map. reflexivity.
    + rewrite <- !(map_cons g), Q, map_length. destruct (_ =? _)%nat; reflexivity.
Qed.

Lemma current_mirror b : current (mirror b) = current b.
Proof. reflexivity. Qed.

Lemma all_nan_opp a l : all_nan (opp_arr a :: l) = all_nan (a :: l).
Proof.
  unfold all_nan, max_len. cbn [filter forallb is0d opp_arr map el].
  destruct (is0d a); cbn [negb]; [reflexivity|]. cbn [map el opp_arr]. now rewrite opps_len.
Qed.
Lemma opp_nan l : opp_arr (all_nan l) = all_nan l.
Proof.
  unfold all_nan, opp_arr, out. cbn. f_equal. induction (max_len l); [reflexivity|]. cbn. now f_equal.
Qed.
Lemma opp_nan_repeat n : opps (repeat None n) = repeat None n.
Proof. induction n; [reflexivity|]. cbn. now f_equal. Qed.

Definition mirror_nc (r : arr * arr * arr * list fl) : arr * arr * arr * list fl :=
  let '(L, M, C, after) := r in (opp_arr L, M, C, opps after).

Lemma check_side_opp h a : check_side (- h) (opp_arr a) = and_then (option_map opps) (check_side h a).
Proof.
  unfold check_side. cbn [el opp_arr isint]. rewrite exists_opp, forall_opp.
  destruct (existsb _ _); [|reflexivity]. destruct (forallb _ _); [reflexivity|]. destruct (isint a); [reflexivity|].
  cbn [and_then option_map]. do 2 f_equal. unfold opps. rewrite !map_map. apply map_ext. intros v. rewrite wrong_opp.
  destruct (wrong_side h v); reflexivity.
Qed.

Lemma normal_coord_mirror b lat lt :
  normal_coord (mirror b) (opp_arr lat) lt = and_then mirror_nc (normal_coord b lat lt).
Proof.
  unfold normal_coord. rewrite current_mirror. destruct (current b) as [rc|].
  - cbn [hemi blat mirror]. rewrite check_side_opp. destruct (check_side (hemi b) lat) as [[lats|]|e]; [| |reflexivity].
    + cbn [and_then option_map bind]. unfold opps at 1. rewrite bc2_map. destruct (bc2 lats (el lt)) as [ps|e]; [|reflexivity].
      cbn [and_then bind].
      rewrite (mapE_then (fun p : fl * fl => normal_pt (hemi b) (blat b) rc (fst p) (snd p)) _ _ first_opp).
      2:{ intros p. cbn [fst snd]. apply normal_pt_opp. }
      destruct (mapE _ ps) as [rs|e]; [|reflexivity]. cbn [and_then bind mirror_nc is0d opp_arr isnd el].
      rewrite !map_map. unfold opp_arr, out. cbn. unfold opps. rewrite map_map. destruct (isnd lat); reflexivity.
    + cbn [and_then option_map bind mirror_nc]. rewrite all_nan_opp, opp_nan. reflexivity.
  - cbn [and_then mirror_nc]. rewrite all_nan_opp, opp_nan. reflexivity.
Qed.

Lemma revert_coord_mirror b olat omlt rcorr :
  revert_coord (mirror b) (opp_arr olat) omlt rcorr =
  and_then (fun r => (opp_arr (fst r), snd r)) (revert_coord b olat omlt rcorr).
Proof.
  unfold revert_coord. rewrite current_mirror. cbn [hemi blat mirror el opp_arr]. destruct (current b) as [rc|].
  - rewrite forall_opp. destruct (forallb _ _); [cbn [and_then fst snd]; rewrite all_nan_opp, opp_nan; reflexivity|].
    unfold opps. rewrite bc2_map. destruct (bc2 (el olat) (el omlt)) as [ps|e]; [|reflexivity]. cbn [and_then bind].
    rewrite bc2_map. destruct (bc2 ps (el rcorr)) as [qs|e]; [|reflexivity]. cbn [and_then bind].
    rewrite (mapE_then (fun q : fl * fl * fl => revert_pt (hemi b) (blat b) rc (fst (fst q)) (snd (fst q)) (snd q)) _ _ first_opp).
    2:{ intros p. cbn [fst snd]. apply revert_pt_opp. }
    destruct (mapE _ qs) as [rs|e]; [|reflexivity]. cbn [and_then bind fst snd is0d opp_arr].
    rewrite !map_map. unfold opp_arr, out, opps. cbn. now rewrite map_map.
  - cbn [and_then fst snd]. rewrite all_nan_opp, opp_nan. reflexivity.
Qed.

(** ** Stored boundaries *)
Definition mirror_e (e : option (list fl * list fl)) : option (list fl * list fl) :=
  match e with None => None | Some p => Some (opps (fst p), snd p) end.

Lemma py_get_map {A B} (f : A -> B) l i : py_get (map f l) i = option_map f (py_get l i).
Proof.
  unfold py_get. rewrite map_length. destruct (_ && _); [apply nth_error_map|]. destruct (_ && _); [apply nth_error_map|reflexivity].
Qed.
Lemma set_at_map {A B} (f : A -> B) l i v : set_at (map f l) i (f v) = map f (set_at l i v).
Proof.
  unfold set_at, zlen. rewrite map_length, map_app, map_cons, firstn_map, skipn_map. reflexivity.
Qed.
Lemma getE_map {A B} (f : A -> B) l i : getE (map f l) i = and_then f (getE l i).
Proof. unfold getE. rewrite py_get_map. destruct (py_get l i); reflexivity. Qed.

Lemma boundary_loop_mirror h rcs ow mlts rinds : forall c,
  boundary_loop (- h) rcs ow mlts rinds (map mirror_e c) =
  let r := boundary_loop h rcs ow mlts rinds c in (map mirror_e (fst r), snd r).
Proof.
  induction rinds as [|i rest IH]; intros c; [reflexivity|]. cbn [boundary_loop]. rewrite py_get_map.
  destruct (py_get c i) as [old|]; [|reflexivity]. cbn [option_map]. destruct (py_get rcs i) as [rc|]; [|reflexivity].
  assert (ME : mapE (boundary_pt (- h) rc) mlts = and_then opps (mapE (boundary_pt h rc) mlts)).
  { rewrite <- (map_id mlts) at 1. apply (mapE_then (boundary_pt h rc) _ (fun x => x) opp). apply boundary_pt_opp. }
  rewrite ME. destruct old as [p|]; cbn [mirror_e]; [destruct ow; [|apply IH]|];
    (destruct (mapE (boundary_pt h rc) mlts) as [lats|e]; [|reflexivity]; cbn [and_then];
     change (Some (opps lats, mlts)) with (mirror_e (Some (lats, mlts))); rewrite set_at_map; apply IH).
Qed.

Definition mirror_g (r : cache * option exn * list fl) : cache * option exn * list fl :=
  let '(c, e, m) := r in (map mirror_e c, e, m).

Lemma get_lat_mirror b s mlt ri ow :
  get_aacgm_boundary_lat (mirror b) (mirror_store s) mlt ri ow = mirror_g (get_aacgm_boundary_lat b s mlt ri ow).
Proof.
  unfold get_aacgm_boundary_lat. cbn [recs mirror hemi].
  assert (C0 : match mirror_store s with Some c => c | None => repeat None (length (recs b)) end =
               map mirror_e (match s with Some c => c | None => repeat None (length (recs b)) end)).
  { destruct s as [c|]; cbn [mirror_store]; [reflexivity|]. induction (length (recs b)); [reflexivity|]. cbn. now f_equal. }
  rewrite C0. destruct (isint mlt); [reflexivity|]. rewrite boundary_loop_mirror. cbv zeta.
  destruct (boundary_loop _ _ _ _ _ _) as [c e]. reflexivity.
Qed.

(** ** Dual boundaries *)
Lemma abs_lt_opp a b : abs_lt (opp a) (opp b) = abs_lt a b.
Proof. destruct a, b; try reflexivity. cbn. now rewrite !Rabs_Ropp. Qed.
Lemma abs_ge_opp a b : abs_ge (opp a) (opp b) = abs_ge a b.
Proof. destruct a, b; try reflexivity. cbn. now rewrite !Rabs_Ropp. Qed.
Lemma fsub_opp a b : fsub (opp a) (opp b) = opp (fsub a b).
Proof. destruct a, b; try reflexivity. cbn. f_equal. ring. Qed.
Lemma fmul_opp a b : fmul (opp a) (opp b) = fmul a b.
Proof. destruct a, b; try reflexivity. cbn. f_equal. ring. Qed.
Lemma fmul_opp_l a b : fmul (opp a) b = opp (fmul a b).
Proof. destruct a, b; try reflexivity. cbn. f_equal. ring. Qed.
Lemma fdiv2_opp a b : fdiv2 (opp a) (opp b) = fdiv2 a b.
Proof.
  destruct a, b; try reflexivity. cbn. destruct (Req_EM_T (- r0) 0), (Req_EM_T r0 0); try lra; try reflexivity.
  f_equal. field. lra.
Qed.
Lemma fdiv2_opp_r a b : fdiv2 a (opp b) = opp (fdiv2 a b).
Proof.
  destruct a, b; try reflexivity. cbn. destruct (Req_EM_T (- r0) 0), (Req_EM_T r0 0); try lra; try reflexivity.
  cbn. f_equal. field. lra.
Qed.
Lemma some_opp x : Some (- x) = opp (Some x).
Proof. reflexivity. Qed.
Lemma some_sub x y : Some (- x - - y) = opp (Some (x - y)).
Proof. cbn. f_equal. ring. Qed.

Lemma mid_lat_opp o e lat ob eb : mid_lat (- o) (- e) (opp lat) (opp ob) (opp eb) = opp (mid_lat o e lat ob eb).
Proof. unfold mid_lat. now rewrite some_sub, !fsub_opp, fmul_opp, fdiv2_opp_r, some_opp, fsub_opp. Qed.
Lemma out_lat_opp e lat eb : out_lat (- e) (opp lat) (opp eb) = opp (out_lat e lat eb).
Proof. unfold out_lat. now rewrite !some_opp, fdiv2_opp, fsub_opp, fmul_opp_l, fsub_opp. Qed.
Lemma rev_mid_opp o e olat ob eb : rev_mid (- o) (- e) (opp olat) (opp ob) (opp eb) = opp (rev_mid o e olat ob eb).
Proof. unfold rev_mid. now rewrite some_sub, !some_opp, !fsub_opp, fmul_opp, fdiv2_opp_r, fsub_opp. Qed.
Lemma rev_out_opp e olat eb : rev_out (- e) (opp olat) (opp eb) = opp (rev_out e olat eb).
Proof. unfold rev_out. now rewrite !some_opp, fdiv2_opp, fsub_opp, fmul_opp_l, fsub_opp. Qed.

Definition opp_pt (p : pt) : pt := let '(lat, olat, (ob, eb)) := p in (opp lat, opp olat, (opp ob, opp eb)).

Lemma bound_lat_opp o e bad p : bound_lat (- o) (- e) bad (opp_pt p) = opp (bound_lat o e bad p).
Proof.
  destruct p as [[lat olat] [ob eb]]. unfold bound_lat, opp_pt, reg_out, reg_mid, reg_ocb.
  rewrite some_opp, !abs_lt_opp, !abs_ge_opp. destruct (abs_lt lat eb); [apply out_lat_opp|].
  destruct (_ && _); [apply mid_lat_opp|]. destruct (abs_ge _ _); [reflexivity|]. destruct bad; reflexivity.
Qed.
Lemma count_map {A B} (f : B -> bool) (g : A -> B) (k : A -> bool) l :
  (forall a, f (g a) = k a) -> count f (map g l) = count k l.
Proof.
  intros H. unfold count. induction l as [|a l IH]; [reflexivity|]. cbn [map filter]. rewrite H.
  destruct (k a); cbn; now rewrite IH.
Qed.
Lemma some_bad_opp o l : some_bad (- o) (map opp_pt l) = some_bad o l.
Proof.
  unfold some_bad. rewrite map_length.
  rewrite (count_map _ opp_pt (fun p : pt => reg_ocb o (snd (fst p)))), 
    (count_map _ opp_pt (fun p : pt => reg_mid (fst (fst p)) (fst (snd p)) (snd (snd p)))),
    (count_map _ opp_pt (fun p : pt => reg_out (fst (fst p)) (snd (snd p)))); [reflexivity| | |];
  intros [[lat olat] [ob eb]]; unfold opp_pt, reg_ocb, reg_mid, reg_out; cbn [fst snd].
  - apply abs_lt_opp.
  - now rewrite abs_lt_opp, abs_ge_opp.
  - rewrite some_opp. apply abs_ge_opp.
Qed.

Lemma combine_opp (a b c e : list fl) :
  combine (combine (opps a) (opps b)) (combine (opps c) (opps e)) = map opp_pt (combine (combine a b) (combine c e)).
Proof.
  revert b c e. induction a as [|x a IH]; intros b c e; [reflexivity|].
  destruct b as [|y b]; [reflexivity|]. destruct c as [|z c]; [reflexivity|]. destruct e as [|w e]; [reflexivity|].
  cbn. f_equal. apply IH.
Qed.

Lemma stored_mirror s i : stored_at (mirror_store s) i = and_then mirror_e (stored_at s i).
Proof. destruct s as [c|]; [apply (getE_map mirror_e)|reflexivity]. Qed.

Definition mirror_p (p : option (list fl * list fl) * option (list fl * list fl)) := (mirror_e (fst p), mirror_e (snd p)).
Lemma originals_mirror d : originals (mirror_dual d) = and_then mirror_p (originals d).
Proof.
  unfold originals. cbn [d_os d_es d_o d_e mirror_dual mirror rind]. rewrite !stored_mirror.
  destruct (stored_at (d_os d) _); [|reflexivity]. cbn [and_then bind]. destruct (stored_at (d_es d) _); reflexivity.
Qed.
Lemma mirror_put d os es : mirror_dual (put_stores d os es) = put_stores (mirror_dual d) (mirror_store os) (mirror_store es).
Proof. reflexivity. Qed.

Definition mirror_u (r : list fl * list fl * list fl) := (opps (fst (fst r)), opps (snd (fst r)), snd r).

Lemma update_pair_mirror d mlts int k :
  update_pair (mirror_dual d) mlts int k =
  (mirror_dual (fst (update_pair d mlts int k)), and_then mirror_u (snd (update_pair d mlts int k))).
Proof.
  unfold update_pair. cbn [d_ei d_oi d_e d_o d_es d_os mirror_dual]. destruct (py_get (d_ei d) k) as [ie|]; [|reflexivity].
  destruct (py_get (d_oi d) k) as [io|]; [|reflexivity]. rewrite get_lat_mirror.
  destruct (get_aacgm_boundary_lat (d_e d) _ _ _ _) as [[es er] m1]. cbn [mirror_g].
  destruct er as [e|]; [reflexivity|]. rewrite get_lat_mirror.
  destruct (get_aacgm_boundary_lat (d_o d) _ _ _ _) as [[os er2] m2]. cbn [mirror_g].
  destruct er2 as [e|]; [reflexivity|]. cbn [fst snd]. f_equal.
  cbn [rind mirror]. rewrite !getE_map. destruct (getE os _) as [o|]; [|reflexivity]. cbn [and_then bind].
  destruct (getE es _) as [e|]; [|reflexivity]. cbn [and_then bind].
  destruct o as [[ol ?]|], e as [[el ?]|]; reflexivity.
Qed.

Lemma restore_mirror d o : restore (mirror_dual d) (mirror_p o) = mirror_dual (restore d o).
Proof.
  unfold restore. destruct o as [e o]. cbn [fst snd mirror_p d_os d_es mirror_dual d_o d_e mirror rind]. rewrite mirror_put.
  f_equal.
  - destruct o as [x|]; cbn [mirror_e]; [|reflexivity]. destruct (d_os d) as [c|]; [|reflexivity]. cbn [mirror_store]. f_equal.
    change (Some (opps (fst x), snd x)) with (mirror_e (Some x)). apply (set_at_map mirror_e).
  - destruct e as [x|]; cbn [mirror_e]; [|reflexivity]. destruct (d_es d) as [c|]; [|reflexivity]. cbn [mirror_store]. f_equal.
    change (Some (opps (fst x), snd x)) with (mirror_e (Some x)). apply (set_at_map mirror_e).
Qed.

Lemma with_boundaries_mirror {A} d mlts int ow (use use' : list fl -> list fl -> list fl -> res A) (k : A -> A) :
  (forall eb ob ms, use' (opps eb) (opps ob) ms = and_then k (use eb ob ms)) ->
  with_boundaries (mirror_dual d) mlts int ow use' =
  (mirror_dual (fst (with_boundaries d mlts int ow use)), and_then k (snd (with_boundaries d mlts int ow use))).
Proof.
  intros H. unfold with_boundaries. rewrite originals_mirror, update_pair_mirror. cbn [d_rec mirror_dual].
  set (og := if ow then Ok (None, None) else originals d).
  assert (OG : (if ow then Ok (None, None) else and_then mirror_p (originals d)) = and_then mirror_p og).
  { unfold og. destruct ow; reflexivity. }
  rewrite OG. destruct og as [orig|e]; [|reflexivity]. cbn [and_then].
  destruct (update_pair d mlts int (d_rec d)) as [d2 r]. cbn [fst snd].
  destruct r as [[[eb ob] ms]|e]; [|reflexivity]. cbn [and_then mirror_u fst snd]. rewrite H.
  destruct (use eb ob ms) as [a|e]; [|reflexivity]. cbn [and_then fst snd]. destruct ow; [reflexivity|].
  now rewrite restore_mirror.
Qed.

Lemma ow_mirror d ow : (ow || match originals (mirror_dual d) with Ok (None, None) => true | _ => false end)%bool =
                       (ow || match originals d with Ok (None, None) => true | _ => false end)%bool.
Proof. rewrite originals_mirror. destruct (originals d) as [[[e|] [o|]]|]; reflexivity. Qed.

Lemma map_rep {A B} (f : A -> B) x n : map f (repeat x n) = repeat (f x) n.
Proof. induction n; [reflexivity|]. cbn. now f_equal. Qed.
Lemma spread_opp a b : spread (opp_arr a) b = and_then (fun p => (opp_arr (fst p), snd p)) (spread a b).
Proof.
  unfold spread. cbn [is0d isint el opp_arr]. rewrite opps_len.
  destruct (is0d a), (is0d b); try reflexivity.
  - cbn [and_then fst snd]. unfold opp_arr. cbn. do 3 f_equal. unfold opps. rewrite map_rep. f_equal.
    destruct (el a); reflexivity.
  - destruct (_ =? _)%nat; reflexivity.
Qed.

Lemma isnan_opps l : forallb isnan (opps l) = forallb isnan l.
Proof. induction l as [|v l IH]; [reflexivity|]. cbn. rewrite <- IH. now destruct v. Qed.

Definition mirror_dn (r : arr * arr * arr * arr) : arr * arr * arr * arr :=
  let '(B, M, L, C) := r in (opp_arr B, M, opp_arr L, C).

Lemma dual_normal_mirror d lat lt ow :
  dual_normal (mirror_dual d) (opp_arr lat) lt ow =
  (mirror_dual (fst (dual_normal d lat lt ow)), and_then mirror_dn (snd (dual_normal d lat lt ow))).
Proof.
  unfold dual_normal. rewrite spread_opp. change (is0d (opp_arr lat)) with (is0d lat). destruct (spread lat lt) as [[la ta]|e]; [|reflexivity].
  cbn [and_then fst snd d_rec d_n mirror_dual]. destruct (_ || _)%Z.
  - cbn. unfold opp_arr, out, opps. cbn. rewrite !map_map. reflexivity.
  - change (d_o (mirror_dual d)) with (mirror (d_o d)). change (d_e (mirror_dual d)) with (mirror (d_e d)). rewrite normal_coord_mirror. destruct (normal_coord (d_o d) la ta) as [[[[L M] C] after]|e]; [|reflexivity].
    cbn [and_then mirror_nc]. change (el (opp_arr L)) with (opps (el L)). rewrite isnan_opps. destruct (forallb isnan (el L)); [reflexivity|].
    rewrite ow_mirror. cbv zeta. apply with_boundaries_mirror. intros eb ob ms. cbn [blat mirror and_then mirror_dn].
    rewrite combine_opp, some_bad_opp. unfold opp_arr, out. cbn [is0d isint isnd el]. do 4 f_equal.
    unfold opps. rewrite !map_map. f_equal. apply map_ext. intros p. apply bound_lat_opp.
Qed.

Lemma rev_pt_opp o e lat lt olat ob eb m :
  rev_pt (- o) (- e) ((opp lat, lt), (opp olat, (opp ob, opp eb)), m) = first_opp (rev_pt o e ((lat, lt), (olat, (ob, eb)), m)).
Proof.
  unfold rev_pt. rewrite !some_opp, !abs_lt_opp, !abs_ge_opp.
  destruct (abs_lt olat (Some e)); [now rewrite rev_out_opp|]. destruct (_ && _); [now rewrite rev_mid_opp|reflexivity].
Qed.

Lemma ge_opps o l : forallb (fun v => abs_ge v (Some (- o))) (opps l) = forallb (fun v => abs_ge v (Some o)) l.
Proof. induction l as [|v l IH]; [reflexivity|]. cbn [opps map forallb]. rewrite some_opp, abs_ge_opp. now rewrite <- IH. Qed.

Lemma combine_opp_rev (L M la ob eb ms : list fl) :
  combine (combine (combine (opps L) M) (combine (opps la) (combine (opps ob) (opps eb)))) ms =
  map (fun p => let '((lat, lt), (olat, (o, e)), m) := p in ((opp lat, lt), (opp olat, (opp o, opp e)), m))
    (combine (combine (combine L M) (combine la (combine ob eb))) ms).
Proof.
  revert M la ob eb ms. induction L as [|x L IH]; intros M la ob eb ms; [reflexivity|].
  destruct M as [|y M]; [reflexivity|]. destruct la as [|z la]; [reflexivity|]. destruct ob as [|o ob]; [reflexivity|].
  destruct eb as [|e eb]; [reflexivity|]. destruct ms as [|m ms]; [reflexivity|]. cbn. f_equal. apply IH.
Qed.

Lemma opps_app_skip a n l : opps (a ++ skipn n l) = opps a ++ skipn n (opps l).
Proof. unfold opps. now rewrite map_app, skipn_map. Qed.

Lemma dual_revert_mirror d olat omlt rcorr is_ocb amlt ow :
  dual_revert (mirror_dual d) (opp_arr olat) omlt rcorr is_ocb amlt ow =
  (mirror_dual (fst (dual_revert d olat omlt rcorr is_ocb amlt ow)),
   and_then (fun r => (opp_arr (fst r), snd r)) (snd (dual_revert d olat omlt rcorr is_ocb amlt ow))).
Proof.
  unfold dual_revert. rewrite spread_opp. change (is0d (opp_arr olat)) with (is0d olat). destruct (spread olat omlt) as [[la ta]|e]; [|reflexivity].
  cbn [and_then fst snd]. change (d_o (mirror_dual d)) with (mirror (d_o d)). change (d_e (mirror_dual d)) with (mirror (d_e d)). rewrite revert_coord_mirror.
  destruct (revert_coord (d_o d) la ta rcorr) as [[L M]|e]; [|reflexivity]. cbn [and_then fst snd blat mirror].
  change (el (opp_arr la)) with (opps (el la)). change (el (opp_arr L)) with (opps (el L)).
  rewrite ge_opps, !opps_len.
  set (z := is0d olat && is0d omlt).
  assert (FIN : forall l, opp_arr (out z (if z then firstn 1 l else l)) = out z (if z then firstn 1 (opps l) else opps l)).
  { intros l. unfold opp_arr, out, opps. cbn [is0d isint isnd el]. destruct z; [now rewrite firstn_map|reflexivity]. }
  destruct (is_ocb || _).
  - cbn [fst snd and_then]. now rewrite FIN.
  - destruct amlt as [a|]; [|reflexivity]. rewrite ow_mirror. cbv zeta. apply with_boundaries_mirror.
    intros eb ob ms. rewrite ?opps_len. destruct (_ <? _)%nat; [reflexivity|]. cbn [and_then fst snd]. rewrite FIN.
    rewrite combine_opp_rev, !map_map. rewrite opps_app_skip.
    assert (X : forall l : list ((fl * fl) * (fl * (fl * fl)) * fl),
       map (fun p => fst (rev_pt (- blat (d_o d)) (- blat (d_e d))
              (let '((lat, lt), (olat, (o, e)), m) := p in ((opp lat, lt), (opp olat, (opp o, opp e)), m)))) l =
       map opp (map fst (map (rev_pt (blat (d_o d)) (blat (d_e d))) l)) /\
       map (fun p => snd (rev_pt (- blat (d_o d)) (- blat (d_e d))
              (let '((lat, lt), (olat, (o, e)), m) := p in ((opp lat, lt), (opp olat, (opp o, opp e)), m)))) l =
       map snd (map (rev_pt (blat (d_o d)) (blat (d_e d))) l)).
    { intros l. rewrite !map_map. split; apply map_ext; intros [[[lat lt] [ol [o e]]] m]; rewrite rev_pt_opp; reflexivity. }
    destruct (X (combine (combine (combine (el L) (el M)) (combine (el la) (combine ob eb))) ms)) as [X1 X2].
    rewrite !map_map in X1, X2. rewrite X1, X2. unfold opps. rewrite ?map_map. reflexivity.
Qed.
