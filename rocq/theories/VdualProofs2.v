(** Proofs about [set_ocb] with a DualBoundary: arrays. *)
From Coq Require Import Reals ZArith List Bool Lia Lra.
From Verif Require Import PyBase RangeModel RangeSpec RangeProofs CoordModel CoordSpec CoordProofs CoordProofs2
  DualCoordModel DualCoordSpec DualCoordProofs DualCoordProofs2 PropertiesDualCoord
  VectorModel ScalingModel ScalingSpec ScalingProofs ScalingProofs2 ScalingProofs3 ScalingProofs4 ScalingProofs5 VdualModel VdualSpec VdualProofs.
Import ListNotations.
Open Scope R_scope.

(** The same boundaries and pairs, at any records. *)
Definition alike (d d' : dualc) : Prop :=
  exists i j r os es, d' = mkDual (at_rec (d_o d) i) (at_rec (d_e d) j) (d_oi d) (d_ei d) (d_n d) r os es /\
    stores_fit (d_o d) os /\ stores_fit (d_e d) es.
Lemma alike_trans d d' d'' : alike d d' -> alike d' d'' -> alike d d''.
Proof.
  intros (i & j & r & os & es & -> & _ & _) (i' & j' & r' & os' & es' & -> & F1 & F2). exists i', j', r', os', es'. auto.
Qed.
Lemma alike_refl d : stores_fit (d_o d) (d_os d) -> stores_fit (d_e d) (d_es d) -> alike d d.
Proof. intros F1 F2. exists (rind (d_o d)), (rind (d_e d)), (d_rec d), (d_os d), (d_es d). split; [destruct d as [[] []]; reflexivity|]. auto. Qed.
Lemma alike_pair d d' k io ie orc erc : alike d d' -> pair_at d k io ie orc erc -> pair_at d' k io ie orc erc.
Proof. intros (i & j & r & os & es & -> & F1 & F2) [R OI EI O E H _ _]. constructor; cbn; try assumption. Qed.
Lemma alike_fit d d' q : alike d d' -> fit d q -> fit d' q.
Proof.
  intros A (ie & orc & erc & ro & re & P & [] & G). exists ie, orc, erc, ro, re. split; [now apply (alike_pair d)|].
  destruct A as (i & j & r & os & es & -> & _ & _). split; [constructor; assumption|exact G].
Qed.
Lemma alike_config d d' : alike d d' -> dual_config d -> dual_config d'.
Proof. intros (i & j & r & os & es & -> & _ & _) H. exact H. Qed.
Lemma stored_alike d k io ie orc erc d' : paired d' orc erc -> (exists os es, d' = put_stores (moved d k io ie) os es) -> alike d d'.
Proof.
  intros P (os & es & ->). exists io, ie, k, os, es. split; [reflexivity|]. split; [apply (p_so _ _ _ P)|apply (p_se _ _ _ P)].
Qed.

(** Coordinates of one vector, from an object with the same boundaries. *)
Definition coords_known (d : dualc) (q : Z * Z * datum) (p : rec * vel * R) : Prop :=
  let '(k, io, w) := q in let '(rc, u, bl) := p in
  ocb_rec d k = Ok rc /\ getE (recs (d_o d)) io = Ok rc /\ pair_time d k = Ok io /\ coords_of (d_o d) io (given w) = Ok u /\ good_vel u /\ 0 <= rcent rc < 90 /\
  no_coords [u] = false /\ dual_latitude d k w bl /\
  (exists ol om c, usable (d_o d) io w rc c /\ u = after_coords w ol om c /\
     normal_coord (at_rec (d_o d) io) (sc (Some (g_lat w))) (sc (Some (g_lt w))) = Ok (out true [Some ol], out true [Some om], out true [Some c], [Some (g_lat w)])).
Definition relats (p : rec * vel * R) : vel := relat (snd (fst p)) (Some (snd p)).

Lemma each_one d dc q : dual_config d -> fit d q -> alike d dc ->
  exists p d', coords_known d q p /\ coords_of_dual dc (fst (fst q)) (given (snd q)) = (d', Ok (relats p)) /\ alike d d'.
Proof.
  intros DC F A. destruct q as [[k io] w]. pose proof (alike_fit d dc (k, io, w) A F) as FC. pose proof (alike_config d dc A DC) as DCC.
  destruct F as (ie & orc & erc & ro & re & P & S & G). cbn [fst snd] in *.
  destruct (coords_dual_spec _ _ _ _ _ _ _ _ _ P DC S G) as (d1 & c & bl & ol & om & EBL & U & R0 & NC & CO & CD & PD & ST & CAP & (BL & M & L & C & DN & EB) & _).
  assert (PC : pair_at dc k io ie orc erc) by now apply (alike_pair d).
  assert (SC : sited dc orc erc w ro re /\ in_region dc orc w ro).
  { destruct A as (i & j & r & os & es & -> & _ & _). destruct S. split; [constructor; assumption|exact G]. }
  destruct SC as [SC GC].
  destruct (coords_dual_spec _ _ _ _ _ _ _ _ _ PC DCC SC GC) as (d2 & c2 & bl2 & ol2 & om2 & EBL2 & U2 & _ & NC2 & CO2 & CD2 & PD2 & ST2 & _).
  assert (X : coords_of (d_o dc) io (given w) = coords_of (d_o d) io (given w)) by (destruct A as (i & j & r & os & es & -> & _ & _); reflexivity).
  rewrite X, CO in CO2. unfold after_coords, put_coord in CO2. injection CO2 as <- <- <-.
  assert (bl2 = bl) as ->. { rewrite EBL, EBL2. destruct A as (i & j & r & os & es & -> & _ & _). reflexivity. }
  exists (orc, after_coords w ol om c, bl), d2. split; [|split; [exact CD2|apply (alike_trans d dc); [exact A|apply (stored_alike dc _ _ _ _ _ _ PD2 ST2)]]].
  destruct (pair_rec _ _ _ _ _ _ P) as [OR PT]. destruct (usable_good _ _ _ _ _ U) as (GV & R & E3). unfold coords_known.
  split; [exact OR|]. split; [exact E3|]. split; [exact PT|]. split; [exact CO|]. split; [now apply good_put|]. split; [exact R|]. split; [reflexivity|]. split.
  - exists (moved d k io ie), d1, BL, M, L, C. split; [apply (moved_spec _ _ _ _ _ _ P)|]. auto.
  - exists ol, om, c. auto.
Qed.

Lemma each_all d qs : dual_config d -> Forall (fit d) qs -> forall dc, alike d dc ->
  exists ps d', Forall2 (coords_known d) qs ps /\ coords_each dc (map (fun q => fst (fst q)) qs) (map (fun q => given (snd q)) qs) = (d', Ok (map relats ps)) /\ alike d d'.
Proof.
  intros DC F. induction F as [|q qs Q _ IH]; intros dc A.
  - exists [], dc. cbn. auto.
  - destruct (each_one d dc q DC Q A) as (p & d1 & K & E & A1). destruct (IH d1 A1) as (ps & d2 & KS & ES & A2).
    exists (p :: ps), d2. split; [now constructor|]. split; [|exact A2]. cbn [map coords_each]. rewrite E, ES. reflexivity.
Qed.

Lemma known_recs d qs ps : Forall2 (coords_known d) qs ps ->
  mapE (ocb_rec d) (map (fun q => fst (fst q)) qs) = Ok (map (fun p => fst (fst p)) ps) /\
  mapE (pair_time d) (map (fun q => fst (fst q)) qs) = Ok (map (fun q => snd (fst q)) qs).
Proof.
  induction 1 as [|[[k io] w] [[rc u] bl] qs ps (H & _ & H2 & _) _ [IH1 IH2]]; [split; reflexivity|]. cbn [map mapE fst snd]. rewrite H, H2. cbn [bind].
  rewrite IH1, IH2. split; reflexivity.
Qed.

Lemma finished_fun b sf rc v a a' : finished b sf rc v a -> finished b sf rc v a' -> a = a'.
Proof. intros (n & e & z & E & ->) (n' & e' & z' & E' & ->). rewrite E in E'. now injection E' as <- <- <-. Qed.

(** The part after the coordinates: as with the open-closed boundary alone. *)
Lemma finish_known d sf qs ps : qs <> [] -> Forall2 (coords_known d) qs ps ->
  exists vs, finish (d_o d) sf (map (fun p => fst (fst p)) ps) (map relats ps) = Ok vs /\
    forall us, Forall2 (item_done (d_o d) sf) (map (fun q => (snd (fst q), snd q)) qs) us ->
      length vs = length qs /\
      forall i q v u, nth_error qs i = Some q -> nth_error vs i = Some v -> nth_error us i = Some u ->
        exists bl, v = relat u (Some bl) /\ dual_latitude d (fst (fst q)) (snd q) bl.
Proof.
  intros NE F.
  assert (W : exists ks, map k_rc ks = map (fun p => fst (fst p)) ps /\ map k_v ks = map relats ps /\ Forall k_ok ks).
  { destruct (works_exist (map (fun p => (fst (fst p), relats p)) ps)) as (ks & K1 & K2 & K3).
    - rewrite Forall_map. clear - F. induction F as [|[[k io] w] [[rc u] bl] qs ps (_ & _ & _ & _ & G & R & _) F IH]; constructor; [|exact IH].
      cbn [fst snd]. split; [exact R|]. destruct G as (la & lt & n & e & z & H). exists la, lt, n, e, z. exact H.
    - exists ks. rewrite !map_map in K1, K2. cbn [fst snd] in K1, K2. auto. }
  destruct W as (ks & K1 & K2 & K3).
  destruct (finish_spec (d_o d) sf ks) as (vs & E & D); [|exact K3|].
  { intros ->. destruct ps; [|discriminate K1]. inversion F; subst. now apply NE. }
  exists vs. rewrite K1, K2 in E. split; [exact E|]. clear E NE K3. revert ks vs K1 K2 D.
  induction F as [|[[k io] w] [[rc u0] bl] qs ps (H1 & H2 & H3 & H4 & G & R & N & DL & (ol & om & c & U & EU & NC)) F IH]; intros ks vs K1 K2 D us FU.
  - destruct ks; [|discriminate K1]. inversion D; subst. split; [reflexivity|]. intros [|i] q v u X; discriminate X.
  - destruct ks as [|k0 ks]; [discriminate K1|]. cbn [map fst snd] in K1, K2. injection K1 as A1 K1. injection K2 as A2 K2.
    inversion D as [|x v0 l l' FD D']; subst. inversion FU as [|x u1 l l2 FI FU']; subst.
    destruct (IH ks l' K1 K2 D' l2 FU') as [LL IHn]. split; [cbn; now rewrite LL|].
    intros [|i] q v u X Y Z; [|now apply (IHn i)]. cbn in X, Y, Z. injection X as <-. injection Y as <-. injection Z as <-. cbn [fst snd].
    exists bl. split; [|exact DL].
    destruct FI as (rc' & c' & ol' & om' & U' & NC' & FIN). cbn [fst snd] in *.
    assert (rc' = k_rc k0) as -> by (destruct U as (_ & Q1 & _); destruct U' as (_ & Q2 & _); congruence).
    rewrite NC in NC'. injection NC' as <- <- <-. rewrite A2 in FD. unfold relats in FD. cbn [fst snd] in FD.
    eapply finished_fun; [exact FD|]. now apply finished_relat.
Qed.

Lemma known_coords d qs ps : qs <> [] -> Forall2 (coords_known d) qs ps -> no_coords (map relats ps) = false.
Proof.
  intros NE F. inversion F as [|q p qs' ps' K F']; subst; [now destruct NE|]. destruct q as [[k io] w], p as [[rc u] bl].
  destruct K as (_ & _ & _ & _ & _ & _ & _ & _ & (ol & om & c & _ & -> & _)). unfold no_coords. cbn. reflexivity.
Qed.
Lemma known_usable d qs ps : Forall2 (coords_known d) qs ps ->
  Forall (fun q : item => exists rc c, usable (d_o d) (fst q) (snd q) rc c) (map (fun q => (snd (fst q), snd q)) qs).
Proof.
  induction 1 as [|[[k io] w] [[rc u] bl] qs ps (_ & _ & _ & _ & _ & _ & _ & _ & (ol & om & c & U & _)) _ IH]; constructor; [|exact IH]. cbn. eauto.
Qed.

Lemma F2_of_nth {A B C} (R : A -> B -> C -> Prop) qs vs us : length vs = length qs -> length us = length qs ->
  (forall i q v u, nth_error qs i = Some q -> nth_error vs i = Some v -> nth_error us i = Some u -> R q v u) ->
  Forall2 (fun q p => R q (fst p) (snd p)) qs (combine vs us).
Proof.
  revert vs us. induction qs as [|q qs IH]; intros [|v vs] [|u us] L1 L2 H; try discriminate; [constructor|].
  cbn. constructor; [apply (H 0%nat); reflexivity|]. apply IH; [now injection L1|now injection L2|]. intros i q' v' u' X Y Z. now apply (H (Datatypes.S i)).
Qed.

Lemma dual_matched d own arg qs : dual_config d -> qs <> [] -> Forall (fit d) qs ->
  exists d' vs us b', set_ocb_dual_matched d (map (fun q => fst (fst q)) qs) own arg (map (fun q => given (snd q)) qs) = (d', Ok vs) /\
    set_ocb_matched (d_o d) (map (fun q => snd (fst q)) qs) own arg (map (fun q => given (snd q)) qs) = Ok (us, b') /\
    length vs = length qs /\ length us = length qs /\
    (forall i q v u, nth_error qs i = Some q -> nth_error vs i = Some v -> nth_error us i = Some u ->
        exists bl, v = relat u (Some bl) /\ dual_latitude d (fst (fst q)) (snd q) bl) /\ alike d d'.
Proof.
  intros DC NE F.
  assert (A0 : alike d d).
  { destruct F as [|q l (ie & orc & erc & ro & re & P & _)]; [now destruct NE|]. apply alike_refl; [apply (pa_so _ _ _ _ _ _ P)|apply (pa_se _ _ _ _ _ _ P)]. }
  destruct (each_all d qs DC F d A0) as (ps & d' & K & E & A). destruct (known_recs _ _ _ K) as [KR KT].
  destruct (finish_known d (choose_sf own arg) qs ps NE K) as (vs & EF & REL).
  set (is := map (fun q : Z * Z * datum => (snd (fst q), snd q)) qs) in *.
  assert (NI : is <> []) by (unfold is; destruct qs; [congruence|discriminate]).
  destruct (matched_spec (d_o d) own arg is NI (known_usable _ _ _ K)) as (us & EM & FM).
  unfold is in EM. rewrite !map_map in EM. cbn [fst snd] in EM. destruct (REL us FM) as [LV RV].
  exists d', vs, us. eexists. split; [|split; [exact EM|split; [exact LV|split; [|split; [exact RV|exact A]]]]].
  - unfold set_ocb_dual_matched. rewrite KT.
    assert (no_coords (map (fun q : Z * Z * datum => given (snd q)) qs) = true) as -> by (rewrite <- (map_map snd given); apply no_coords_given).
    rewrite E. cbn [bind]. rewrite (known_coords _ _ _ NE K), KR. cbn [bind]. now rewrite EF.
  - apply Forall2_length' in FM. unfold is in FM. rewrite map_length in FM. lia.
Qed.

(** Several vectors, one pair. *)
Lemma repeat_map {A B} (x : B) (l : list A) : repeat x (length l) = map (fun _ => x) l.
Proof. induction l; cbn; congruence. Qed.

Lemma dual_array_coords d k io ws : dual_config d -> ws <> [] -> Forall (fun w => fit d (k, io, w)) ws ->
  exists d' ps BL M C, Forall2 (coords_known d) (map (fun w => (k, io, w)) ws) ps /\ alike d d' /\
    dual_coords d k (mkArr false false true (map w_lat (map given ws))) (mkArr false false true (map w_lt (map given ws))) = (d', Ok (BL, M, C)) /\
    put_coords (map given ws) (map w_lat (map given ws)) (el BL) (el M) (el C) = map relats ps.
Proof.
  intros DC NE F.
  set (la := mkArr false false true (map w_lat (map given ws))). set (ta := mkArr false false true (map w_lt (map given ws))).
  assert (NW : (0 < length ws)%nat) by (destruct ws; [congruence|cbn; lia]).
  assert (AR : dual_args la ta (length ws)).
  { unfold dual_args, wf_arr, la, ta. cbn. rewrite !map_length. repeat split; try discriminate; try (intros; lia); destruct ws; cbn; try congruence; intros; discriminate. }
  (* every point, separately *)
  assert (PT : forall i w, nth_error ws i = Some w -> exists p d' BL M L C, coords_known d (k, io, w) p /\ alike d d' /\
     set_rec d k = Ok (moved d k io (rind (d_e (match set_rec d k with Ok x => x | Err _ => d end)))) /\
     dual_normal (match set_rec d k with Ok x => x | Err _ => d end) la ta false = (d', Ok (BL, M, L, C)) /\
     length (el BL) = length ws /\ length (el M) = length ws /\ length (el C) = length ws /\
     exists om c bl, relats p = put_coord (given w) (Some (g_lat w)) (Some bl) (Some om) (Some c) /\
       nth_error (el BL) i = Some (Some bl) /\ nth_error (el M) i = Some (Some om) /\ nth_error (el C) i = Some (Some c)).
  { intros i w N. rewrite Forall_forall in F. destruct (F w (nth_error_In _ _ N)) as (ie & orc & erc & ro & re & P & S & G). cbn [fst snd] in *.
    destruct (coords_dual_spec _ _ _ _ _ _ _ _ _ P DC S G) as (d1 & c & bl & ol & om & EBL & U & R0 & NC & CO & CD & PD & ST & CAP & (BL1 & M1 & L1 & C1 & DN & EB) & ALL).
    assert (I : (i < length ws)%nat) by (apply nth_error_Some; congruence).
    assert (BE : forall f : vel -> fl, belem (map f (map given ws)) i = f (given w)).
    { intros f. unfold belem. rewrite map_map. assert (Q : nth_error (map (fun x => f (given x)) ws) i = Some (f (given w))) by (rewrite nth_error_map, N; reflexivity).
      destruct (map (fun x => f (given x)) ws) as [|a [|b l]] eqn:EM; [destruct i; discriminate Q| |apply nth_error_nth; exact Q].
      destruct i as [|i]; [now injection Q|destruct i; discriminate Q]. }
    destruct (ALL la ta (length ws) false i AR I (BE w_lat) (BE w_lt)) as (d' & BL & M & L & C & EQ & PD' & ST' & LB & LM & LC & IB & IM & IC).
    destruct (moved_spec _ _ _ _ _ _ P) as [SR _]. rewrite SR. cbn [moved d_e at_rec rind].
    exists (orc, after_coords w ol om c, bl), d', BL, M, L, C.
    destruct (pair_rec _ _ _ _ _ _ P) as [OR PTm]. destruct (usable_good _ _ _ _ _ U) as (GV & R & E3).
    split; [|split; [apply (stored_alike d _ _ _ _ _ _ PD' ST')|split; [reflexivity|split; [exact EQ|split; [exact LB|split; [exact LM|split; [exact LC|]]]]]]].
    - unfold coords_known. split; [exact OR|]. split; [exact E3|]. split; [exact PTm|]. split; [exact CO|]. split; [now apply good_put|]. split; [exact R|]. split; [reflexivity|]. split.
      + exists (moved d k io ie), d1, BL1, M1, L1, C1. auto.
      + exists ol, om, c. auto.
    - exists om, c, bl. split; [reflexivity|]. auto. }
  destruct (nth_error ws 0) as [w0|] eqn:N0; [|apply nth_error_None in N0; lia].
  destruct (PT 0%nat w0 N0) as (_ & d' & BL & M & L & C & _ & A & SR & DN & LB & LM & LC & _).
  set (d1 := match set_rec d k with Ok x => x | Err _ => d end) in *.
  assert (SR1 : set_rec d k = Ok d1) by (unfold d1; now rewrite SR).
  assert (PS : forall n pre post, ws = pre ++ post -> length pre = n ->
     exists ps, Forall2 (coords_known d) (map (fun w => (k, io, w)) post) ps /\
       put_coords (map given post) (map w_lat (map given post)) (skipn n (el BL)) (skipn n (el M)) (skipn n (el C)) = map relats ps).
  { intros n pre post. revert n pre. induction post as [|w post IH]; intros n pre EW LP.
    - exists []. split; [constructor|reflexivity].
    - assert (NW' : nth_error ws n = Some w) by (rewrite EW, nth_error_app2, LP, Nat.sub_diag by lia; reflexivity).
      destruct (PT n w NW') as (p & d2 & BL2 & M2 & L2 & C2 & K & _ & _ & DN2 & _ & _ & _ & (om & c & bl & RP & IB & IM & IC)).
      rewrite DN in DN2. injection DN2 as <- <- <- <- <-.
      destruct (IH (Datatypes.S n) (pre ++ [w])) as (ps & FP & EP); [now rewrite EW, <- app_assoc|rewrite app_length; cbn; lia|].
      assert (SK : forall l (x : fl), nth_error l n = Some x -> skipn n l = x :: skipn (Datatypes.S n) l).
      { clear. intros l. revert n. induction l as [|a l IHl]; intros [|n] x Q; try discriminate Q; [now injection Q as <-|]. cbn in Q. cbn [skipn]. now apply IHl. }
      exists (p :: ps). split; [now constructor|]. rewrite (SK _ _ IB), (SK _ _ IM), (SK _ _ IC). cbn [map put_coords]. rewrite EP, RP. reflexivity. }
  destruct (PS 0%nat [] ws eq_refl eq_refl) as (ps & FP & EP). cbn [skipn] in EP.
  exists d', ps, BL, M, C. split; [exact FP|]. split; [exact A|]. split; [|exact EP].
  unfold dual_coords. rewrite SR1, DN. reflexivity.
Qed.

Lemma dual_array d k io own arg ws : dual_loaded d -> dual_config d -> ws <> [] -> Forall (fun w => fit d (k, io, w)) ws ->
  exists d' vs us, set_ocb_dual_array d k own arg (map given ws) = (d', Ok vs) /\
    set_ocb_array (with_rind (d_o d) io) io own arg (map given ws) = Ok (us, with_rind (d_o d) io) /\
    length vs = length ws /\ length us = length ws /\
    (forall i w v u, nth_error ws i = Some w -> nth_error vs i = Some v -> nth_error us i = Some u ->
        exists bl, v = relat u (Some bl) /\ dual_latitude d k w bl) /\ alike d d'.
Proof.
  intros L DC NE F. destruct (loaded_time d L) as [i0 T].
  destruct (dual_array_coords d k io ws DC NE F) as (d' & ps & BL & M & C & K & A & E & PC).
  set (qs := map (fun w => (k, io, w)) ws) in *.
  assert (NQ : qs <> []) by (unfold qs; destruct ws; [congruence|discriminate]).
  destruct (finish_known d (choose_sf own arg) qs ps NQ K) as (vs & EF & REL).
  assert (US : Forall (fun w => exists rc c, usable (d_o d) io w rc c) ws).
  { pose proof (known_usable _ _ _ K) as U. unfold qs in U. rewrite map_map in U. rewrite Forall_map in U. exact U. }
  assert (EQU : forall w rc c, usable (d_o d) io w rc c -> usable (with_rind (d_o d) io) io w rc c) by (intros w rc c U; exact U).
  destruct (array_spec (with_rind (d_o d) io) io own arg ws) as (us & EA & FA); [|exact NE|eapply Forall_impl; [|exact US]; intros w (rc & c & U); eauto|].
  { destruct US as [|w ws' (rc & c & ((_ & I) & _)) _]; [now destruct NE|]. unfold loaded_at. cbn. lia. }
  assert (FI : Forall2 (item_done (d_o d) (choose_sf own arg)) (map (fun q : Z * Z * datum => (snd (fst q), snd q)) qs) us).
  { unfold qs. rewrite map_map. cbn [fst snd]. clear - FA. induction FA; constructor; assumption. }
  destruct (REL us FI) as [LV RV]. unfold qs in LV. rewrite map_length in LV.
  exists d', vs, us. split; [|split; [exact EA|split; [exact LV|split; [apply Forall2_length' in FA; lia|split; [|exact A]]]]].
  - unfold set_ocb_dual_array. rewrite T, no_coords_given, E. cbn [bind]. rewrite PC, (known_coords _ _ _ NQ K).
    assert (RC : exists rc, ocb_rec d k = Ok rc /\ map (fun p : rec * vel * R => fst (fst p)) ps = repeat rc (length (map relats ps))).
    { assert (G : forall l ps', Forall2 (coords_known d) (map (fun w => (k, io, w)) l) ps' -> forall rc, ocb_rec d k = Ok rc ->
        map (fun p : rec * vel * R => fst (fst p)) ps' = repeat rc (length (map relats ps'))).
      { induction l as [|x l IHl]; intros ps' K2 rc OR; inversion K2 as [|q p qs' ps2 K0 K']; subst; [reflexivity|].
        destruct p as [[rc' u'] bl']. destruct K0 as (OR' & _). rewrite OR in OR'. injection OR' as <-. cbn. now rewrite (IHl _ K' rc OR). }
      assert (Q : exists rc, ocb_rec d k = Ok rc).
      { destruct ws as [|w ws']; [congruence|]. inversion K as [|q p qs' ps' K0 K']; subst. destruct p as [[rc u] bl]. destruct K0 as (OR & _). eauto. }
      destruct Q as (rc & OR). exists rc. split; [exact OR|]. now apply (G ws). }
    destruct RC as (rc & -> & RCS). cbn [bind]. now rewrite <- RCS, EF.
  - intros i w v u NWi Hv Hu. destruct (RV i (k, io, w) v u) as (bl & E1 & E2); [|exact Hv|exact Hu|exists bl; auto].
    unfold qs. rewrite nth_error_map, NWi. reflexivity.
Qed.
