(** Lemmas about [update_vect] and [vectors_to_mag] of LocModel. *)
From Coq Require Import Reals ZArith List Bool String Ascii Lia Lra.
From Verif Require Import PyBase PyString RangeModel RangeSpec RangeProofs CoordModel DualCoordModel VectorModel VectorSpec VectorProofs VectorProofs2
  ScalingModel ScalingProofs PropertiesRange LocModel LocSpec LocProofs.
Import ListNotations.
Open Scope R_scope.

Lemma mapE_map {A B C D} (f : B -> res C) (g : A -> B) (h : D -> C) (P : A -> D -> Prop) l ds :
  (forall a d, P a d -> f (g a) = Ok (h d)) -> Forall2 P l ds -> mapE f (map g l) = Ok (map h ds).
Proof.
  intros H F. induction F as [|a d l ds p F IH]; [reflexivity|]. cbn [map mapE]. rewrite (H _ _ p). cbn [bind]. rewrite IH. reflexivity.
Qed.
Lemma combine_map {A B C} (f : A -> B) (g : A -> C) l : combine (map f l) (map g l) = map (fun x => (f x, g x)) l.
Proof. induction l as [|a l IH]; [reflexivity|]. cbn. rewrite IH. reflexivity. Qed.
Lemma choose_all {A B} (P : A -> B -> Prop) l : (forall a, In a l -> exists b, P a b) -> exists bs, Forall2 P l bs.
Proof.
  induction l as [|a l IH]; intros H; [exists []; constructor|]. destruct (H a (or_introl eq_refl)) as [b p].
  destruct IH as [bs F]; [intros x X; apply H; right; exact X|]. exists (b :: bs). constructor; assumption.
Qed.

(** ** adjust_vectors when every quadrant is known *)
Definition ready (v : vin) : Prop := quad_ok (v_q v) = true /\ quad_ok (p_q v) = true /\ v_n v <> None /\ v_e v <> None /\ p_ang v <> None.
Lemma quad_range q : quad_ok q = true -> (q = 1 \/ q = 2 \/ q = 3 \/ q = 4)%Z.
Proof. unfold quad_ok. rewrite andb_true_iff, !Z.leb_le. lia. Qed.
Lemma ready_elem v : ready v -> adjust_vector v = Ok (match special v with Some r => r | None => elem_normal v end).
Proof.
  intros (QV & QP & N & E & A). unfold adjust_vector. destruct (special v) as [r|] eqn:S; [reflexivity|].
  destruct v as [lt lat n e z vq plt plat ang pq]. cbn [v_q p_q v_n v_e p_ang v_z v_lt p_lt] in *.
  destruct n as [n|]; [|contradiction]. destruct e as [e|]; [|contradiction]. destruct ang as [a|]; [|contradiction].
  assert ((vq =? 0)%Z = false) as -> by (apply Z.eqb_neq; destruct (quad_range _ QV) as [H|[H|[H|H]]]; lia).
  assert ((pq =? 0)%Z = false) as -> by (apply Z.eqb_neq; destruct (quad_range _ QP) as [H|[H|[H|H]]]; lia).
  cbn [bind]. unfold calc_dest_polar_angle, calc_dest_vec_sign. rewrite QV, QP. cbn [negb bind fst snd]. unfold elem_normal. cbn [v_q p_q v_n v_e p_ang v_z].
  assert (NZ : ~ (n = 0 /\ e = 0)).
  { intros [-> ->]. destruct (special_zero _ S) as [_ ZZ]. unfold is_zero in ZZ. cbn [v_n v_e feq] in ZZ. destruct (Req_EM_T 0 0); [discriminate|contradiction]. }
  destruct (azimuth n e NZ) as (m & b & EM & EB & _). rewrite EM, EB.
  assert (exists d, dest_angle pq vq (Some b) (Some a) = Some d) as [d D].
  { destruct (quad_range _ QV) as [-> |[-> |[-> | ->]]], (quad_range _ QP) as [-> |[-> |[-> | ->]]]; cbn; eexists; reflexivity. }
  rewrite D. cbn [isnan orb]. reflexivity.
Qed.
Lemma not_zero_quad q : quad_ok q = true -> (q =? 0)%Z = false.
Proof. intros H. apply Z.eqb_neq. destruct (quad_range _ H) as [E|[E|[E|E]]]; lia. Qed.
Lemma existsb_none {A} (f : A -> bool) l : (forall x, In x l -> f x = false) -> existsb f l = false.
Proof. induction l as [|a l IH]; intros H; [reflexivity|]. cbn. rewrite (H a (or_introl eq_refl)). apply IH. intros x X. apply H. right. exact X. Qed.
Lemma adjust_ready vs : Forall ready vs -> vs <> [] ->
  adjust_vectors vs = Ok (map (fun v => match special v with Some r => r | None => elem_normal v end) vs).
Proof.
  intros R NE. rewrite Forall_forall in R. unfold adjust_vectors. destruct (existsb is_norm vs) eqn:EN.
  - assert (RQ : requad vs = Ok vs).
    { unfold requad.
      rewrite (existsb_none (fun v => (v_q v =? 0)%Z) (filter is_norm vs)) by (intros x X; apply filter_In in X; destruct (R x (proj1 X)) as (Q & _); apply not_zero_quad; exact Q).
      rewrite (existsb_none (fun v => (p_q v =? 0)%Z) (filter is_norm vs)) by (intros x X; apply filter_In in X; destruct (R x (proj1 X)) as (_ & Q & _); apply not_zero_quad; exact Q).
      cbn [bind]. clear. induction vs as [|v vs IH]; [reflexivity|]. cbn [mapE bind]. rewrite IH. cbn [bind]. destruct v. reflexivity. }
    rewrite RQ. cbn [bind]. destruct vs as [|v vs]; [contradiction|]. destruct (R v (or_introl eq_refl)) as (Q1 & Q2 & _). cbn [existsb]. rewrite Q1, Q2. reflexivity.
  - f_equal. apply map_ext_in. intros v Hv. destruct (special v) eqn:S; [reflexivity|]. exfalso.
    assert (is_norm v = true) as X by (destruct (special_zero _ S) as [A B]; unfold is_norm; rewrite A, B; reflexivity).
    assert (existsb is_norm vs = true) by (apply existsb_exists; exists v; split; assumption). congruence.
Qed.

Section Aacgm.
Context (g2a a2g : string -> fl -> fl -> fl -> Z -> fl * fl) (mlt2lon : fl -> Z -> fl).
Context (a2g_heights : string -> fl -> fl -> list fl -> Z -> res (fl * fl)).
Notation update_v := (update_vect g2a a2g mlt2lon a2g_heights).

(** The conversion of one location, and the rest of the call. *)
Definition turn (tr : string) (c : system) (was_mag : bool) : site * Z -> res site :=
  if was_mag then from_mag a2g mlt2lon (code tr c "A2G") else to_mag g2a (code tr c "G2A").
Definition rest (tr : string) (c : system) (hem : Z) (dt : times) (single : bool) (geo mag : list site) (vec : list (fl * fl * fl)) (mags : list fl) : res vobj :=
  if forallb isnan (map pl_lat mag) || forallb isnan (map pl_lt mag) then Ok (mkVobj single mag "magnetic" vec (name c) mags)
  else
    ps <- poles a2g a2g_heights tr (name c) hem dt (map pl_h mag) ;;
    vs <- vectors_to_mag single (cases geo mag vec ps) ;;
    Ok (mkVobj single mag "magnetic" vs "magnetic" (map length_of vs)).

Lemma update_vect_form tr c dt hem s prs : c <> Magnetic -> vo_vc s = name c -> (vo_loc s = name c \/ vo_loc s = name Magnetic) ->
  at_times (vo_single s) (vo_pl s) dt prs -> still_single s dt = vo_single s ->
  let was_mag := String.eqb (vo_loc s) "magnetic" in
  update_v tr dt hem s =
    (qs <- mapE (turn tr c was_mag) prs ;;
     rest tr c hem dt (vo_single s) (if was_mag then qs else vo_pl s) (if was_mag then vo_pl s else qs) (vo_vec s) (vo_mag s)).
Proof.
  intros N VC L A SS wm. destruct s as [single ps loc vec vc mag]. cbn [vo_single vo_pl vo_loc vo_vec vo_vc vo_mag] in *. subst vc.
  unfold update_vect. cbn [vo_single vo_pl vo_loc vo_vec vo_vc vo_mag]. rewrite SS.
  assert (String.eqb (name c) "magnetic" = false) as -> by (destruct c; [contradiction|reflexivity|reflexivity]).
  rewrite Bool.eqb_reflx. cbn [negb]. fold wm. cbv zeta.
  destruct L as [-> | ->].
  - assert (wm = false) as -> by (unfold wm; destruct c; [contradiction|reflexivity|reflexivity]).
    unfold update_loc. cbn [vo_loc]. change (lower "magnetic") with (name Magnetic).
    assert (String.eqb (name Magnetic) (name c) = false) as -> by (destruct c; [contradiction|reflexivity|reflexivity]).
    rewrite (pairing_spec _ _ _ _ _ _ _ _ A). cbn [bind]. change (String.eqb (name Magnetic) "magnetic") with true. cbv iota. rewrite g2a_code_spec. unfold turn.
    destruct (mapE _ prs) as [qs|]; [|reflexivity]. cbn [bind]. cbn [with_places vo_pl vo_loc vo_vec vo_vc vo_mag]. reflexivity.
  - change wm with true. cbv iota. unfold update_loc. cbn [vo_loc]. rewrite lower_name. change (name Magnetic) with "magnetic"%string.
    assert (String.eqb (name c) "magnetic" = false) as -> by (destruct c; [contradiction|reflexivity|reflexivity]).
    rewrite (pairing_spec _ _ _ _ _ _ _ _ A). cbn [bind]. rewrite (method_code_spec tr c (name c) (lower_name c)). unfold turn.
    destruct (mapE _ prs) as [qs|]; [|reflexivity]. cbn [bind]. cbn [with_places vo_pl vo_loc vo_vec vo_vc vo_mag]. reflexivity.
Qed.
Lemma turn_total tr c wm p t : exists q, turn tr c wm (p, t) = Ok q /\
  (if wm then geographic_at a2g mlt2lon tr c p t q else magnetic_at g2a tr c p t q).
Proof. unfold turn. destruct wm; [apply from_mag_spec|apply to_mag_spec]. Qed.
End Aacgm.
