(** [set_ocb] for vectors in the hemisphere of the boundary. *)
From Coq Require Import Reals ZArith List Bool Lia Lra.
From Verif Require Import PyBase RangeModel RangeSpec RangeProofs CoordModel CoordSpec CoordProofs CoordProofs2 DualCoordModel
  VectorModel VectorSpec VectorProofs VectorProofs2 ScalingModel ScalingSpec ScalingProofs ScalingProofs2.
Import ListNotations.
Open Scope R_scope.

Lemma getE_ok {A} (l : list A) i x : (0 <= i < Z.of_nat (length l))%Z -> nth_error l (Z.to_nat i) = Some x -> getE l i = Ok x.
Proof.
  intros H E. unfold getE, py_get. cbv zeta.
  assert ((0 <=? i) && (i <? Z.of_nat (length l)) = true)%Z as -> by (apply andb_true_iff; split; [apply Z.leb_le|apply Z.ltb_lt]; lia).
  now rewrite E.
Qed.
Lemma usable_good b ind d rc c : usable b ind d rc c -> good_vel (given d) /\ 0 <= rcent rc < 90 /\ getE (recs b) ind = Ok rc.
Proof.
  intros ((H & I) & N & L & _ & _ & R). split; [|split; [exact R|now apply getE_ok]].
  exists (g_lat d), (g_lt d), (g_n d), (g_e d), (g_z d). cbn. repeat (split; [reflexivity|]).
  destruct H as [H|H]; rewrite H in L; lra.
Qed.
Lemma good_put v a b c d : good_vel v -> a = w_lat v -> good_vel (put_coord v a b c d).
Proof. intros (la & lt & n & e & z & H) ->. exists la, lt, n, e, z. exact H. Qed.

Lemma usable_coords b ind d rc c : usable b ind d rc c ->
  exists ol om, normal_coord (at_rec b ind) (sc (Some (g_lat d))) (sc (Some (g_lt d))) =
      Ok (out true [Some ol], out true [Some om], out true [Some c], [Some (g_lat d)]) /\
    coords_of b ind (given d) = Ok (put_coord (given d) (Some (g_lat d)) (Some ol) (Some om) (Some c)) /\
    normal_pt (CoordModel.hemi b) (blat b) rc (Some (g_lat d)) (Some (g_lt d)) = Ok (Some ol, Some om) /\
    wrong_side (CoordModel.hemi b) (Some (g_lat d)) = false.
Proof.
  intros ((H & I) & N & L & F & R & _).
  assert (S : selected (at_rec b ind) rc) by (split; [exact I|exact N]). apply current_selected in S.
  destruct (normal_coord_sc (at_rec b ind) (Some (g_lat d)) (Some (g_lt d))) as (l & m & c' & E & K). rewrite S in K.
  assert (W : wrong_side (CoordModel.hemi b) (Some (g_lat d)) = false) by (apply inside_right; [exact H|unfold in_hemisphere; lra]).
  cbn [CoordModel.hemi at_rec blat] in K. rewrite W in K. destruct K as [K1 K2]. rewrite F in K2. subst c'.
  destruct (normal_pt_spec (CoordModel.hemi b) (blat b) rc (g_lat d) (g_lt d) c F R) as (m0 & E0 & _). cbv zeta in E0.
  rewrite E0 in K1. injection K1 as <- <-. eexists _, _. split; [exact E|]. split; [|auto].
  unfold coords_of. cbn [given fresh w_lat w_lt].
  destruct (normal_coord_one (at_rec b ind) true false true false false (Some (g_lat d)) (Some (g_lt d))) as (l2 & m2 & c2 & zz & E1 & E2).
  unfold sc in E. rewrite E1 in E. injection E as El Em _ Ec. rewrite E2. cbn [bind first el out]. now rewrite El, Em, Ec.
Qed.

Notation item := (Z * datum)%type.
Definition after_coords (d : datum) (ol om c : R) : vel := put_coord (given d) (Some (g_lat d)) (Some ol) (Some om) (Some c).
Definition item_done (b : bnd) (sf : option sfun) (q : item) (v : vel) : Prop :=
  exists rc c ol om, usable b (fst q) (snd q) rc c /\
    normal_coord (at_rec b (fst q)) (sc (Some (g_lat (snd q)))) (sc (Some (g_lt (snd q)))) =
      Ok (out true [Some ol], out true [Some om], out true [Some c], [Some (g_lat (snd q))]) /\
    finished b sf rc (after_coords (snd q) ol om c) v.

Lemma no_coords_given ds : no_coords (map given ds) = true.
Proof. unfold no_coords. induction ds; [reflexivity|]. cbn in *. now destruct (forallb _ (map given ds)). Qed.

Lemma no_coords_map {A} (f : A -> datum) l : no_coords (map (fun x => given (f x)) l) = true.
Proof. rewrite <- (map_map f given). apply no_coords_given. Qed.

Lemma items_work b (qs : list item) : Forall (fun q => exists rc c, usable b (fst q) (snd q) rc c) qs ->
  exists ks, mapE (getE (recs b)) (map fst qs) = Ok (map k_rc ks) /\
    mapE (fun p => coords_of b (fst p) (snd p)) (combine (map fst qs) (map (fun q => given (snd q)) qs)) = Ok (map k_v ks) /\
    Forall k_ok ks /\ Forall2 (fun q k => exists c ol om, usable b (fst q) (snd q) (k_rc k) c /\
      normal_coord (at_rec b (fst q)) (sc (Some (g_lat (snd q)))) (sc (Some (g_lt (snd q)))) =
      Ok (out true [Some ol], out true [Some om], out true [Some c], [Some (g_lat (snd q))]) /\
      k_v k = after_coords (snd q) ol om c) qs ks.
Proof.
  induction 1 as [|[ind d] qs (rc & c & U) _ (ks & I1 & I2 & I3 & I4)].
  - exists []. repeat split; constructor.
  - cbn [fst snd] in *. destruct (usable_coords b ind d rc c U) as (ol & om & E1 & E2 & _). destruct (usable_good _ _ _ _ _ U) as (G & R & E3).
    destruct (work_exists rc (after_coords d ol om c) R) as (k & K1 & K2 & K3); [now apply good_put|].
    exists (k :: ks). cbn [map mapE combine fst snd]. rewrite E3, E2. cbn [bind]. rewrite I1, I2. cbn [bind]. rewrite K1, K2.
    split; [reflexivity|]. split; [reflexivity|]. split; [now constructor|]. constructor; [|exact I4].
    exists c, ol, om. cbn [fst snd]. rewrite K1. auto.
Qed.

Lemma done_of b sf qs ks vs :
  Forall2 (fun q k => exists c ol om, usable b (fst q) (snd q) (k_rc k) c /\
      normal_coord (at_rec b (fst q)) (sc (Some (g_lat (snd q)))) (sc (Some (g_lt (snd q)))) =
      Ok (out true [Some ol], out true [Some om], out true [Some c], [Some (g_lat (snd q))]) /\
      k_v k = after_coords (snd q) ol om c) qs ks ->
  Forall2 (fun k v => finished b sf (k_rc k) (k_v k) v) ks vs -> Forall2 (item_done b sf) qs vs.
Proof.
  intros F. revert vs. induction F as [|q k qs ks (c & ol & om & U & E & K) F IH]; intros vs G; inversion G; subst; constructor.
  - exists (k_rc k), c, ol, om. rewrite <- K. auto.
  - now apply IH.
Qed.

Lemma has_coords b (qs : list item) ks : qs <> [] ->
  Forall2 (fun q k => exists c ol om, usable b (fst q) (snd q) (k_rc k) c /\
      normal_coord (at_rec b (fst q)) (sc (Some (g_lat (snd q)))) (sc (Some (g_lt (snd q)))) =
      Ok (out true [Some ol], out true [Some om], out true [Some c], [Some (g_lat (snd q))]) /\
      k_v k = after_coords (snd q) ol om c) qs ks -> no_coords (map k_v ks) = false /\ ks <> [].
Proof.
  intros NE F. inversion F as [|q k qs' ks' (c & ol & om & _ & _ & K) F']; subst; [now destruct NE|]. split; [|discriminate].
  unfold no_coords. cbn [map forallb]. rewrite K. reflexivity.
Qed.

Lemma last_rec_eq b inds : last_rec b inds = with_rind b (last inds (rind b)).
Proof.
  unfold last_rec. revert b. induction inds as [|i inds IH]; intros b; cbn [fold_left]; [now destruct b|].
  rewrite IH. unfold at_rec, with_rind. cbn [CoordModel.hemi blat recs rind]. apply f_equal.
  assert (G : forall (l : list Z) x y, l <> [] -> last l x = last l y).
  { clear. induction l as [|j l IHl]; intros x y N; [congruence|]. cbn. destruct l; [reflexivity|]. apply IHl. discriminate. }
  destruct inds as [|j l]; [reflexivity|]. change (last (i :: j :: l) (rind b)) with (last (j :: l) (rind b)). apply G. discriminate.
Qed.

Theorem matched_spec b sf arg qs : qs <> [] -> Forall (fun q : item => exists rc c, usable b (fst q) (snd q) rc c) qs ->
  exists vs, set_ocb_matched b (map fst qs) sf arg (map (fun q => given (snd q)) qs) = Ok (vs, with_rind b (last (map fst qs) (rind b))) /\
    Forall2 (item_done b (choose_sf sf arg)) qs vs.
Proof.
  intros NE U. destruct (items_work b qs U) as (ks & E1 & E2 & K & F). destruct (has_coords b qs ks NE F) as [NC NK].
  destruct (finish_spec b (choose_sf sf arg) ks NK K) as [vs [E3 G]].
  exists vs. split; [|eapply done_of; eassumption].
  unfold set_ocb_matched. rewrite E1. cbn [bind]. cbv zeta.
  assert (N : no_coords (map (fun q : item => given (snd q)) qs) = true) by apply no_coords_map.
  rewrite N, E2. cbn [bind]. rewrite NC, E3. cbn [bind]. now rewrite last_rec_eq.
Qed.

(** Scalars. *)
Lemma loaded_getE b : loaded_at b -> exists r, getE (recs b) (rind b) = Ok r.
Proof.
  intros H. unfold loaded_at in H. unfold getE, py_get. cbv zeta.
  destruct ((0 <=? rind b) && (rind b <? Z.of_nat (length (recs b))))%Z eqn:E.
  - apply andb_true_iff in E. destruct E as [E1 E2]. apply Z.leb_le in E1. apply Z.ltb_lt in E2.
    destruct (nth_error (recs b) _) as [r|] eqn:N; [eauto|]. apply nth_error_None in N. lia.
  - assert ((- Z.of_nat (length (recs b)) <=? rind b) && (rind b <? 0) = true)%Z as ->.
    { apply andb_false_iff in E. apply andb_true_iff. split; [apply Z.leb_le; lia|]. apply Z.ltb_lt.
      destruct E as [E|E]; [apply Z.leb_gt in E; lia|apply Z.ltb_ge in E; lia]. }
    destruct (nth_error (recs b) _) as [r|] eqn:N; [eauto|]. apply nth_error_None in N.
    apply andb_false_iff in E. destruct E as [E|E]; [apply Z.leb_gt in E; lia|apply Z.ltb_ge in E; lia].
Qed.

Lemma adjust_total k : k_ok k -> w_n (k_v k) <> None -> w_e (k_v k) <> None -> exists r, adjust_vector (k_vin k) = Ok r.
Proof.
  intros (_ & A1 & A2 & A3 & _ & A5 & A6 & _ & _ & EQ) _ _.
  destruct (adjust_vectors_spec [k_vin k]) as [rs [E F]].
  - intros v [<-|[]]. split; right; [reflexivity|exact EQ].
  - destruct (special (k_vin k)) eqn:S; [left; intros v [<-|[]]; congruence|right; exists (k_vin k); split; [now left|split; [exact S|]]].
    unfold defined, k_vin. cbn. auto.
  - inversion F as [|x y l l' [Q _] F' E1 E2]; subst. exists y. apply Q.
    destruct (special (k_vin k)) eqn:S; [left; discriminate|right]. unfold defined, k_vin. cbn. auto.
Qed.

Theorem scalar_spec b ind d rc c : loaded_at b -> usable b ind d rc c ->
  exists v, set_ocb b ind None None (given d) = Ok (v, with_rind b ind) /\ item_done b None (ind, d) v.
Proof.
  intros L U. destruct (loaded_getE b L) as [r0 E0]. destruct (usable_coords b ind d rc c U) as (ol & om & E1 & E2 & _).
  destruct (usable_good _ _ _ _ _ U) as (G & R & E3).
  destruct (work_exists rc (after_coords d ol om c) R) as (k & K1 & K2 & K3); [now apply good_put|].
  destruct (adjust_total k K3) as [r A]; [rewrite K2; discriminate..|].
  destruct (finish1_spec b k r K3 A) as (v & F1 & F2). rewrite K1, K2 in F1, F2.
  exists v. split.
  - unfold set_ocb. rewrite E0. cbn [bind]. cbv zeta.
    assert (no_coords [given d] = true) as -> by reflexivity. rewrite E2. cbn [bind]. fold (after_coords d ol om c).
    assert (no_coords [after_coords d ol om c] = false) as -> by reflexivity. rewrite E3. cbn [bind choose_sf]. rewrite F1. reflexivity.
  - exists rc, c, ol, om. cbn [fst snd]. auto.
Qed.

(** Scalars with a scaling function. *)
Theorem scalar_scaled_spec b ind d rc c own arg f : loaded_at b -> usable b ind d rc c -> choose_sf own arg = Some f ->
  exists v ol om, set_ocb b ind own arg (given d) = Ok (v, with_rind b ind) /\
    let u := Some (rr rc + c) in let s := Some (90 - Rabs (blat b)) in
    v = put_out (put_radii (after_coords d ol om c) u s) (f (Some (g_n d)) u s) (f (Some (g_e d)) u s) (f (Some (g_z d)) u s).
Proof.
  intros L U SF. destruct (loaded_getE b L) as [r0 E0]. destruct (usable_coords b ind d rc c U) as (ol & om & E1 & E2 & _).
  destruct (usable_good _ _ _ _ _ U) as (G & R & E3).
  destruct (work_exists rc (after_coords d ol om c) R) as (k & K1 & K2 & K3); [now apply good_put|].
  destruct (adjust_total k K3) as [r A]; [rewrite K2; discriminate..|].
  eexists _, ol, om. split; [|reflexivity].
  unfold set_ocb. rewrite E0. cbn [bind]. cbv zeta.
  assert (no_coords [given d] = true) as -> by reflexivity. rewrite E2. cbn [bind]. fold (after_coords d ol om c).
  assert (no_coords [after_coords d ol om c] = false) as -> by reflexivity. rewrite E3. cbn [bind]. rewrite SF.
  destruct K3 as (E & A1 & A2 & A3 & A4 & A5 & A6 & EA & _ & EQ). unfold k_vin in A. rewrite K1, K2 in *.
  unfold finish1. cbv zeta. rewrite E. cbn [bind fst snd put_radii w_lt w_lat w_n w_e w_z].
  match goal with |- context [isnan ?a || isnan ?b] => change (isnan a || isnan b) with false end. cbv iota.
  rewrite EA. cbn [bind]. destruct (isnan (k_ang k)) eqn:L3; [destruct (k_ang k); [discriminate|congruence]|].
  rewrite EQ. cbn [bind]. rewrite A. cbn [bind]. destruct r as [[n e] z]. reflexivity.
Qed.

(** Arrays with one boundary index. *)
Lemma check_all_right h (ds : list datum) : Forall (fun d => wrong_side h (Some (g_lat d)) = false) ds ->
  check_side h (mkArr false false true (map w_lat (map given ds))) = Ok (Some (map w_lat (map given ds))).
Proof.
  intros F. unfold check_side. cbn [el].
  assert (existsb (wrong_side h) (map w_lat (map given ds)) = false) as ->; [|reflexivity].
  induction F as [|d ds H F IH]; [reflexivity|]. cbn [map existsb]. cbn [given fresh w_lat]. now rewrite H, IH.
Qed.
Lemma bc2_maps {A B C} (f : A -> B) (g : A -> C) l : bc2 (map f l) (map g l) = Ok (map (fun x => (f x, g x)) l).
Proof.
  destruct l as [|x [|y l]]; [reflexivity|reflexivity|]. cbn [map bc2 length]. rewrite !map_length, Nat.eqb_refl.
  change (f x :: f y :: map f l) with (map f (x :: y :: l)). change (g x :: g y :: map g l) with (map g (x :: y :: l)). now rewrite combine_maps.
Qed.

Theorem array_spec b ind sf arg ds : loaded_at b -> ds <> [] -> Forall (fun d => exists rc c, usable b ind d rc c) ds ->
  exists vs, set_ocb_array b ind sf arg (map given ds) = Ok (vs, with_rind b ind) /\
    Forall2 (fun d v => item_done b (choose_sf sf arg) (ind, d) v) ds vs.
Proof.
  intros L NE U. destruct (loaded_getE b L) as [r0 E0].
  assert (exists rc, current (at_rec b ind) = Some rc /\ getE (recs b) ind = Ok rc) as (rc & CU & GE).
  { inversion U as [|d ds' (rc & c & ((H & I) & N & _)) U']; subst; [now destruct NE|]. exists rc. split; [|now apply getE_ok].
    apply current_selected. split; [exact I|exact N]. }
  assert (RC : forall d rc' c, usable b ind d rc' c -> rc' = rc).
  { intros d rc' c ((H & I) & N & _). rewrite (getE_ok _ _ _ I N) in GE. congruence. }
  set (qs := map (fun d => (ind, d)) ds).
  assert (U' : Forall (fun q : item => exists rc c, usable b (fst q) (snd q) rc c) qs).
  { unfold qs. rewrite Forall_map. exact U. }
  assert (NE' : qs <> []) by (destruct ds; [congruence|discriminate]).
  destruct (items_work b qs U') as (ks & _ & _ & K & F). destruct (has_coords b qs ks NE' F) as [NC NK].
  destruct (finish_spec b (choose_sf sf arg) ks NK K) as [vs [E3 G]].
  exists vs. split.
  2:{ assert (D : Forall2 (item_done b (choose_sf sf arg)) qs vs) by (eapply done_of; eassumption). clear - D. unfold qs in D. revert vs D.
      induction ds as [|d ds IH]; intros vs D; inversion D; subst; constructor; auto. }
  unfold set_ocb_array. rewrite E0. cbn [bind]. cbv zeta. rewrite no_coords_given. unfold normal_coord. rewrite CU.
  assert (W : Forall (fun d => wrong_side (CoordModel.hemi b) (Some (g_lat d)) = false) ds).
  { eapply Forall_impl; [|exact U]. intros d (rc' & c & X). now destruct (usable_coords _ _ _ _ _ X) as (_ & _ & _ & _ & _ & Y). }
  cbn [at_rec CoordModel.hemi blat]. rewrite (check_all_right _ _ W). cbn [bind el is0d isnd]. rewrite !map_map, bc2_maps. cbn [bind].
  assert (P : mapE (fun p => normal_pt (CoordModel.hemi b) (blat b) rc (fst p) (snd p)) (map (fun x => (w_lat (given x), w_lt (given x))) ds)
     = Ok (map (fun k => (w_olat (k_v k), w_omlt (k_v k))) ks) /\ map (fun d => rfun rc (w_lt (given d))) ds = map (fun k => w_rc (k_v k)) ks /\
     length ks = length ds /\ map k_rc ks = repeat rc (length ks) /\
     put_coords (map given ds) (map (fun x => w_lat (given x)) ds) (map (fun k => w_olat (k_v k)) ks) (map (fun k => w_omlt (k_v k)) ks) (map (fun k => w_rc (k_v k)) ks) = map k_v ks).
  { clear - F RC. unfold qs in F. revert ks F. induction ds as [|d ds IH]; intros ks F; inversion F as [|q k l l' (c & ol & om & Y & E & Q) F']; subst.
    - repeat split.
    - destruct (IH _ F') as (I1 & I2 & I3 & I4 & I5). cbn [fst snd] in *. pose proof (RC _ _ _ Y) as Z.
      destruct (usable_coords _ _ _ _ _ Y) as (ol2 & om2 & E2 & _ & N & _). rewrite E2 in E. injection E as -> ->. rewrite Z in N.
      cbn [map mapE fst snd length repeat put_coords]. cbn [given fresh w_lat w_lt] in *. rewrite N. cbn [bind]. rewrite I1. cbn [bind]. rewrite Q.
      split; [reflexivity|]. destruct Y as (_ & _ & _ & RF & _). rewrite Z in RF. rewrite RF, I2. split; [reflexivity|].
      split; [now rewrite I3|]. rewrite Z, I4. split; [reflexivity|]. cbn [after_coords put_coord w_olat w_omlt w_rc]. now rewrite I5. }
  destruct P as (P1 & P2 & P3 & P4 & P5). rewrite P1. cbn [bind out el]. rewrite !map_map. cbn [fst snd]. 
  change (map (fun x => w_lat (given x)) ds) with (map (fun x => w_lat (given x)) ds). rewrite P2, P5.
  rewrite NC, GE. cbn [bind]. rewrite map_length, <- P4, E3. reflexivity.
Qed.
