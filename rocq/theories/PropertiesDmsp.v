(** C60, C61, C99-C105: DMSP boundary files. *)
From Coq Require Import String Ascii Reals ZArith List Bool Lia Lra.
From Verif Require Import PyBase PyString TimeModel TimeSpec TimeProofs TimeProofs2 TimeProofs3 TimeProofs4 RangeModel RangeProofs CoordModel CoordSpec
  FilesModel FilesSpec FilesProofs PropertiesFiles DmspModel PropertiesCoord.
Import ListNotations.
Open Scope string_scope.
Open Scope list_scope.
Open Scope Z_scope.

(** ** Names of DMSP files *)
(** dmsp-fII_ssj_*_YYYYMMDD_*: satellite [id], midnight [t]. *)
Definition ssj_name (name : str) (id t : Z) : Prop :=
  exists ids w ds rest, name = s2l "dmsp-f" ++ ids ++ s2l "_ssj_" ++ w ++ s2l "_" ++ ds ++ s2l "_" ++ rest /\
    written id ids /\ plain w /\ compact_date ds t /\
    ~ (exists a b, ids ++ s2l "_ssj_" ++ w ++ s2l "_" ++ ds ++ s2l "_" ++ rest = a ++ s2l "dmsp-f" ++ b).

Lemma digit_not_us c : isdigit c = true -> c <> "_"%char.
Proof. intros H ->. discriminate H. Qed.
Lemma digits_plain s : forallb isdigit s = true -> plain s.
Proof. intros H I. rewrite forallb_forall in H. exact (digit_not_us _ (H _ I) eq_refl). Qed.
Lemma find_us p r : plain p -> find (s2l "_ssj") (p ++ s2l "_ssj" ++ r) = Some (length p).
Proof.
  induction p as [|a p IH]; intros P.
  - cbn [app]. destruct r; reflexivity.
  - cbn [app find]. assert (X : prefix (s2l "_ssj") (a :: p ++ s2l "_ssj" ++ r) = false).
    { cbn [prefix s2l list_ascii_of_string]. destruct (Ascii.eqb_spec "_" a) as [E|]; [|reflexivity]. exfalso. apply P. left. symmetry. exact E. }
    rewrite X. rewrite IH; [reflexivity|]. intros I. apply P. right. exact I.
Qed.
Lemma date_plain ds t : compact_date ds t -> plain ds.
Proof.
  intros (y & m & d & n & sy & sm & sd & _ & Y & M & D & -> & _) I.
  assert (DG : forall c v, is_digit_of c v -> c <> "_"%char) by (intros c v [A B] ->; change (code "_") with 95 in B; lia).
  destruct Y as (c1 & c2 & c3 & c4 & a & b & c & e & -> & D1 & D2 & D3 & D4 & _).
  destruct M as (m1 & m2 & ma & mb & -> & M1 & M2 & _). destruct D as (d1 & d2 & da & db & -> & E1 & E2 & _).
  apply DG in D1, D2, D3, D4, M1, M2, E1, E2. cbn in I. intuition.
Qed.
Lemma ssj_parts name id t : ssj_name name id t ->
  py_int (before "_ssj" (after_last (length name) "dmsp-f" name)) = Ok id /\
  exists ds, nth_error (split "_" name) 3 = Some ds /\ sp_time (strptime ds "%Y%m%d") = Ok t.
Proof.
  intros (ids & w & ds & rest & -> & W & P & D & N). destruct (written_spec _ _ W) as (_ & NE & DG & V).
  assert (PI : plain ids) by (apply digits_plain; exact DG). split.
  - set (tl := ids ++ s2l "_ssj_" ++ w ++ s2l "_" ++ ds ++ s2l "_" ++ rest) in *.
    assert (F : find (s2l "dmsp-f") tl = None).
    { destruct (find (s2l "dmsp-f") tl) eqn:F; [|reflexivity]. exfalso. apply N. apply contains_spec. unfold contains. rewrite F. reflexivity. }
    assert (A : after_last (length (s2l "dmsp-f" ++ tl)) "dmsp-f" (s2l "dmsp-f" ++ tl) = tl).
    { change (length (s2l "dmsp-f" ++ tl)) with (S (S (S (S (S (S (length tl))))))).
      assert (F0 : find (s2l "dmsp-f") (s2l "dmsp-f" ++ tl) = Some O) by (destruct tl; reflexivity).
      cbn [after_last]. rewrite F0. change (skipn (0 + length (s2l "dmsp-f")) (s2l "dmsp-f" ++ tl)) with tl. cbn [after_last]. rewrite F. reflexivity. }
    rewrite A. unfold before, tl. change (s2l "_ssj_" ++ ?r) with (s2l "_ssj" ++ "_"%char :: r). rewrite find_us by exact PI.
    rewrite firstn_app, firstn_all, Nat.sub_diag. cbn [firstn]. rewrite app_nil_r, py_int_digits by assumption. congruence.
  - exists ds. split; [|apply compact_read; exact D].
    replace (s2l "dmsp-f" ++ ids ++ s2l "_ssj_" ++ w ++ s2l "_" ++ ds ++ s2l "_" ++ rest)
      with ((s2l "dmsp-f" ++ ids) ++ "_"%char :: s2l "ssj" ++ "_"%char :: w ++ "_"%char :: ds ++ "_"%char :: rest) by (rewrite <- app_assoc; reflexivity).
    rewrite split_app by (intros I; apply in_app_or in I; destruct I as [I|I]; [cbn in I; repeat (destruct I as [I|I]; [discriminate I|]); destruct I|exact (PI I)]).
    rewrite split_app by (apply plain_dec; reflexivity). rewrite split_app by exact P. rewrite split_app by (eapply date_plain; exact D). reflexivity.
Qed.

(** ** C60 *)
(** No start: from 1900 on; no end: until now. *)
Definition lower_bound (stime : option Z) (a : Z) : Prop := stime = Some a \/ stime = None /\ midnight 1900 1 1 a.
Definition upper_bound (now : Z) (etime : option Z) (b : Z) : Prop := etime = Some b \/ etime = None /\ b = now.
Theorem C60_dmsp_selection :
  forall now name stime etime sats id t a b,
    ssj_name name id t -> lower_bound stime a -> upper_bound now etime b ->
    exists r, evaluate_dmsp_boundary_file now name stime etime sats = Ok r /\ (r = true <-> In id sats /\ a <= t < b).
Proof.
  intros now name st et sats id t a b N LB UB. destruct (ssj_parts _ _ _ N) as (PI & ds & NT & SP). unfold evaluate_dmsp_boundary_file.
  assert (match st with Some x => x | None => day 1900 1 1 end = a) as ->.
  { destruct LB as [->|[-> M]]; [reflexivity|]. symmetry. apply midnight_eq. exact M. }
  assert (match et with Some x => x | None => now end = b) as -> by (destruct UB as [->|[-> ->]]; reflexivity).
  rewrite PI. cbn [bind]. destruct (existsb (Z.eqb id) sats) eqn:X.
  - rewrite NT, SP. cbn [bind]. eexists. split; [reflexivity|]. rewrite andb_true_iff, Z.leb_le, Z.ltb_lt. apply existsb_exists in X.
    destruct X as (y & I & E). apply Z.eqb_eq in E. subst y. intuition.
  - exists false. split; [reflexivity|]. split; [discriminate|]. intros [I _]. exfalso.
    assert (existsb (Z.eqb id) sats = true) by (apply existsb_exists; exists id; split; [exact I|apply Z.eqb_refl]). congruence.
Qed.
(** A directory with underscores in front of the name is not understood. *)
Theorem C60_path_refuted :
  exists name id t, ssj_name name id t /\ forall now, evaluate_dmsp_boundary_file now (s2l "my_dir/" ++ name) None None [id] = Err ValueError.
Proof.
  exists (s2l "dmsp-f16_ssj_precipitating-electrons-ions_20101231_v1.1.2_boundaries.csv"), 16, (day 2010 12 31). split.
  - exists (s2l "16"), (s2l "precipitating-electrons-ions"), (s2l "20101231"), (s2l "v1.1.2_boundaries.csv"). split; [reflexivity|].
    split; [apply (wr_snoc (s2l "1") "6" 1 6); [apply wr_one; split; [lia|reflexivity]|split; [lia|reflexivity]]|].
    split; [apply plain_dec; reflexivity|]. split; [|intros X; apply contains_spec in X; vm_compute in X; discriminate X].
    exists 2010, 12, 31, (ordinal 2010 12 31), (s2l "2010"), (s2l "12"), (s2l "31").
    split; [apply calendar_day_spec; cbn; lia|].
    split; [do 4 eexists; exists 2, 0, 1, 0; split; [reflexivity|]; repeat (split; [split; [lia|reflexivity]|]); reflexivity|].
    split; [do 2 eexists; exists 1, 2; split; [reflexivity|]; repeat (split; [split; [lia|reflexivity]|]); reflexivity|].
    split; [do 2 eexists; exists 3, 1; split; [reflexivity|]; repeat (split; [split; [lia|reflexivity]|]); reflexivity|]. split; reflexivity.
  - intros now. vm_compute. reflexivity.
Qed.
Example C60_case : forall now,
  evaluate_dmsp_boundary_file now (s2l "dmsp-f16_ssj_precipitating-electrons-ions_20101231_v1.1.2_boundaries.csv") (Some (day 2010 12 31)) (Some (day 2011 1 1)) [16; 17] = Ok true.
Proof. intros now. vm_compute. reflexivity. Qed.
Print Assumptions C60_dmsp_selection.
Print Assumptions C60_path_refuted.

(** ** C99 *)
(** The files whose day meets the request are selected if the request starts at midnight. *)
Theorem C99_days_in_request_partial :
  (* missing: requests starting during a day, C99_midday_refuted *)
  forall now name n stime etime sats id k,
    ssj_name name id (day_us k) -> In id sats -> stime = day_us n ->
    (exists u, day_us k <= u < day_us (k + 1) /\ stime <= u < etime) ->
    evaluate_dmsp_boundary_file now name (Some stime) (Some etime) sats = Ok true.
Proof.
  intros now name n st et sats id k N I -> (u & U1 & U2).
  destruct (C60_dmsp_selection now name (Some (day_us n)) (Some et) sats id (day_us k) (day_us n) et N (or_introl eq_refl) (or_introl eq_refl)) as (r & E & R).
  rewrite E. f_equal. apply R. split; [exact I|]. unfold day_us in *. lia.
Qed.
Theorem C99_midday_refuted :
  forall now name id k stime etime sats,
    ssj_name name id (day_us k) -> day_us k < stime -> evaluate_dmsp_boundary_file now name (Some stime) (Some etime) sats <> Ok true.
Proof.
  intros now name id k st et sats N L E.
  destruct (C60_dmsp_selection now name (Some st) (Some et) sats id (day_us k) st et N (or_introl eq_refl) (or_introl eq_refl)) as (r & E' & R).
  rewrite E in E'. injection E' as <-. destruct (proj1 R eq_refl). lia.
Qed.
Lemma f16_name : ssj_name (s2l "dmsp-f16_ssj_precipitating-electrons-ions_20101231_v1.1.2_boundaries.csv") 16 (day_us (ordinal 2010 12 31)).
Proof.
  exists (s2l "16"), (s2l "precipitating-electrons-ions"), (s2l "20101231"), (s2l "v1.1.2_boundaries.csv"). split; [reflexivity|].
  split; [apply (wr_snoc (s2l "1") "6" 1 6); [apply wr_one; split; [lia|reflexivity]|split; [lia|reflexivity]]|].
  split; [apply plain_dec; reflexivity|]. split; [|intros X; apply contains_spec in X; vm_compute in X; discriminate X].
  exists 2010, 12, 31, (ordinal 2010 12 31), (s2l "2010"), (s2l "12"), (s2l "31").
  split; [apply calendar_day_spec; cbn; lia|].
  split; [do 4 eexists; exists 2, 0, 1, 0; split; [reflexivity|]; repeat (split; [split; [lia|reflexivity]|]); reflexivity|].
  split; [do 2 eexists; exists 1, 2; split; [reflexivity|]; repeat (split; [split; [lia|reflexivity]|]); reflexivity|].
  split; [do 2 eexists; exists 3, 1; split; [reflexivity|]; repeat (split; [split; [lia|reflexivity]|]); reflexivity|]. split; reflexivity.
Qed.
Example C99_case : ssj_name (s2l "dmsp-f16_ssj_precipitating-electrons-ions_20101231_v1.1.2_boundaries.csv") 16 (day_us (ordinal 2010 12 31)) /\
  (* the file of the day, asked for at noon *)
  evaluate_dmsp_boundary_file 0 (s2l "dmsp-f16_ssj_precipitating-electrons-ions_20101231_v1.1.2_boundaries.csv")
    (Some (day 2010 12 31 + sec_us 43200)) (Some (day 2011 1 1)) [16] = Ok false.
Proof. split; [exact f16_name|]. vm_compute. reflexivity. Qed.
Print Assumptions C99_days_in_request_partial.
Print Assumptions C99_midday_refuted.
