(** C57, C91: boundary corrections. *)
From Coq Require Import String Reals ZArith List Bool Lra Lia.
From Verif Require Import PyBase PyString RangeModel RangeProofs CoordModel CorrectionModel CorrectionSpec CorrectionProofs.
Import ListNotations.
Open Scope R_scope.

(** The published ellipses: method, semi-major axis, eccentricity, angle. *)
Definition published_ellipses : list (string * R * R * R) :=
  [("median"%string, 4.01, 0.55, -0.92); ("gaussian"%string, 4.41, 0.51, -0.95)].

Lemma ellipse_case meth nm a e t : In (nm, a, e, t) published_ellipses -> any_case meth nm ->
  (any_case meth "median" /\ (a, e, t) = (4.01, 0.55, -0.92) \/ any_case meth "gaussian" /\ (a, e, t) = (4.41, 0.51, -0.95)) /\ 0 < a /\ 0 < e < 1.
Proof.
  intros [H|[H|[]]] A; injection H as <- <- <- <-; repeat split; try lra; auto.
Qed.

(** ** C57 *)
Theorem C57_elliptical :
  forall inst meth nm a e t, any_case inst "ampere" -> In (nm, a, e, t) published_ellipses -> any_case meth nm ->
  forall m, exists r,
    elliptical (Some m) inst meth = Ok (Some r) /\
    (* on the ellipse: the denominator does not vanish and the shift is poleward *)
    1 + e * cos (mlt_angle m - t) > 0 /\
    r = - (a * (1 - e ^ 2) / (1 + e * cos (mlt_angle m - t))) /\
    - (a * (1 + e)) <= r <= - (a * (1 - e)) /\ r < 0 /\
    (* of period 24 h *)
    (forall k, elliptical (Some (m + 24 * IZR k)) inst meth = Ok (Some r)) /\
    (* undefined local times give undefined corrections *)
    elliptical None inst meth = Ok None.
Proof.
  intros i meth nm a e t I P M m. destruct (ellipse_case meth nm a e t P M) as (M2 & A & E).
  destruct (focal_range a e t (mlt_angle m) A E) as [D [L U]].
  exists (- focal_distance a e t (mlt_angle m)). split; [apply elliptical_ok; assumption|]. split; [lra|]. split; [reflexivity|].
  split; [lra|]. split; [nra|]. split.
  - intros k. rewrite (elliptical_ok _ i meth a e t I M2). unfold focal_distance.
    replace (mlt_angle (m + 24 * IZR k) - t) with (mlt_angle m - t + IZR k * (2 * PI)) by (unfold mlt_angle; field). rewrite cos_shift. reflexivity.
  - apply elliptical_nan; [exact I|]. tauto.
Qed.
(** The extreme values are taken. *)
Theorem C57_elliptical_extremes :
  forall inst meth nm a e t, any_case inst "ampere" -> In (nm, a, e, t) published_ellipses -> any_case meth nm ->
  exists m1 m2, elliptical (Some m1) inst meth = Ok (Some (- (a * (1 - e)))) /\ elliptical (Some m2) inst meth = Ok (Some (- (a * (1 + e)))).
Proof.
  intros i meth nm a e t I P M. destruct (ellipse_case meth nm a e t P M) as (M2 & A & E). pose proof PI_RGT_0.
  exists (t * 12 / PI), ((t + PI) * 12 / PI). rewrite !(elliptical_ok _ i meth a e t I M2). unfold focal_distance.
  replace (mlt_angle (t * 12 / PI) - t) with 0 by (unfold mlt_angle; field; lra).
  replace (mlt_angle ((t + PI) * 12 / PI) - t) with PI by (unfold mlt_angle; field; lra). rewrite cos_0, cos_PI.
  split; do 2 apply f_equal; field; lra.
Qed.
Theorem C57_harmonic :
  forall inst meth ni nm c0 l, In (ni, nm, c0, l) published -> any_case inst ni -> any_case meth nm ->
  forall m, exists r,
    harmonic (Some m) inst meth = Ok (Some r) /\
    r = - harmonics c0 l (mlt_angle m) /\
    - c0 - total_amplitude l <= r <= - c0 + total_amplitude l /\
    (forall k, harmonic (Some (m + 24 * IZR k)) inst meth = Ok (Some r)) /\
    harmonic None inst meth = Ok None.
Proof.
  intros i meth ni nm c0 l P A B m. exists (- harmonics c0 l (mlt_angle m)).
  destruct (harmonic_ok m i meth ni nm c0 l P A B) as [H N]. split; [exact H|]. split; [reflexivity|]. split.
  { pose proof (harmonics_range c0 l (mlt_angle m)) as R0. apply Rabs_def2 in R0 || apply Rabs_le_between in R0 || idtac.
    unfold Rabs in R0. destruct (Rcase_abs _) in R0; lra. }
  split; [|exact N]. intros k. rewrite (proj1 (harmonic_ok _ i meth ni nm c0 l P A B)). do 3 apply f_equal.
  pose proof (published_short _ _ _ _ P) as S.
  assert (T : forall n p, cos (IZR n * (mlt_angle (m + 24 * IZR k) + p)) = cos (IZR n * (mlt_angle m + p)) /\
                          sin (IZR n * (mlt_angle (m + 24 * IZR k) + p)) = sin (IZR n * (mlt_angle m + p))).
  { intros n p. replace (IZR n * (mlt_angle (m + 24 * IZR k) + p)) with (IZR n * (mlt_angle m + p) + IZR n * (IZR k * (2 * PI))) by (unfold mlt_angle; field).
    split; [apply cos_turns|apply sin_turns]. }
  unfold harmonics. generalize l. clear - T.
  match goal with |- forall l0, c0 + ?f 1 l0 = c0 + ?g 1 l0 => set (f1 := f); set (g1 := g) end.
  assert (G : forall l n, f1 (IZR n) l = g1 (IZR n) l).
  { induction l as [|[[[c p] s] q] l IH]; intros n; [reflexivity|].
    change (f1 (IZR n) ((c, p, s, q) :: l)) with
      (c * cos (IZR n * (mlt_angle (m + 24 * IZR k) + p)) + s * sin (IZR n * (mlt_angle (m + 24 * IZR k) + q)) + f1 (IZR n + 1) l).
    change (g1 (IZR n) ((c, p, s, q) :: l)) with
      (c * cos (IZR n * (mlt_angle m + p)) + s * sin (IZR n * (mlt_angle m + q)) + g1 (IZR n + 1) l).
    rewrite (proj1 (T n p)), (proj2 (T n q)), <- (plus_IZR n 1), IH. reflexivity. }
  intros l. rewrite (G l 1%Z). reflexivity.
Qed.
Theorem C57_unknown_names :
  forall m inst meth,
    (elliptical m inst meth = Err ValueError <->
       ~ (any_case inst "ampere" /\ exists nm a e t, In (nm, a, e, t) published_ellipses /\ any_case meth nm)) /\
    (harmonic m inst meth = Err ValueError <->
       ~ exists ni nm c0 l, In (ni, nm, c0, l) published /\ any_case inst ni /\ any_case meth nm) /\
    (forall e, elliptical m inst meth = Err e \/ harmonic m inst meth = Err e -> e = ValueError).
Proof.
  intros m i meth.
  assert (E : (any_case i "ampere" /\ exists nm a e t, In (nm, a, e, t) published_ellipses /\ any_case meth nm) \/
              (~ any_case i "ampere" \/ ~ any_case meth "median" /\ ~ any_case meth "gaussian")).
  { destruct (string_dec (lower i) "ampere") as [E|E].
    - destruct (assoc (lower meth) ellipse_coeff) as [c|] eqn:F.
      + left. split; [apply lower_any_case; [cbn; lia|exact E]|].
        destruct (ellipse_names meth c F) as [[H _]|[H _]].
        * exists "median"%string. do 3 eexists. split; [left; reflexivity|exact H].
        * exists "gaussian"%string. do 3 eexists. split; [right; left; reflexivity|exact H].
      + right. right. apply ellipse_none. exact F.
    - right. left. intros H. apply E. apply lower_any_case; [cbn; lia|exact H]. }
  assert (EO : (any_case i "ampere" /\ exists nm a e t, In (nm, a, e, t) published_ellipses /\ any_case meth nm) ->
               exists x, elliptical m i meth = Ok x).
  { intros [I (nm & a & e & t & P & M)]. destruct (ellipse_case meth nm a e t P M) as (M2 & _). destruct m as [m|].
    - rewrite (elliptical_ok m i meth a e t I M2). eauto.
    - rewrite elliptical_nan; [eauto|exact I|tauto]. }
  assert (H : (exists ni nm c0 l, In (ni, nm, c0, l) published /\ any_case i ni /\ any_case meth nm) \/
              (forall ni nm c0 l, In (ni, nm, c0, l) published -> any_case i ni -> any_case meth nm -> False)).
  { destruct (assoc (lower i) harmonic_coeff) as [tb|] eqn:E1; [destruct (assoc (lower meth) tb) as [c|] eqn:E2|].
    - left. destruct (proj1 (harmonic_tables i meth c)) as (ni & nm & c0 & l & P & A & B & _); [eauto|]. exists ni, nm, c0, l. auto.
    - right. intros ni nm c0 l P A B. destruct (proj2 (harmonic_tables i meth (flat c0 l))) as (tb' & T1 & T2); [exists ni, nm, c0, l; auto|].
      rewrite T1 in E1. injection E1 as ->. congruence.
    - right. intros ni nm c0 l P A B. destruct (proj2 (harmonic_tables i meth (flat c0 l))) as (tb' & T1 & T2); [exists ni, nm, c0, l; auto|]. congruence. }
  assert (HO : (exists ni nm c0 l, In (ni, nm, c0, l) published /\ any_case i ni /\ any_case meth nm) -> exists x, harmonic m i meth = Ok x).
  { intros (ni & nm & c0 & l & P & A & B). destruct m as [m|].
    - rewrite (proj1 (harmonic_ok m i meth ni nm c0 l P A B)). eauto.
    - rewrite (proj2 (harmonic_ok 0 i meth ni nm c0 l P A B)). eauto. }
  split; [|split].
  - split.
    + intros X Y. destruct (EO Y) as [x Z]. congruence.
    + intros N. apply elliptical_err. destruct E as [E|E]; [contradiction|exact E].
  - split.
    + intros X Y. destruct (HO Y) as [x Z]. congruence.
    + intros N. apply harmonic_err. destruct H as [H|H]; [contradiction|exact H].
  - intros e [X|X].
    + destruct E as [E|E]; [destruct (EO E); congruence|]. rewrite elliptical_err in X by exact E. congruence.
    + destruct H as [H|H]; [destruct (HO H); congruence|]. rewrite harmonic_err in X by exact H. congruence.
Qed.
Theorem C57_circular : forall mlt r_add, circular mlt r_add = Some r_add.
Proof. reflexivity. Qed.

Ltac names := repeat (constructor; [first [left; reflexivity | right; split; [cbn; lia|reflexivity]]|]); constructor.
Example C57_case :
  any_case "Ampere" "ampere" /\ In ("median"%string, 4.01, 0.55, -0.92) published_ellipses /\ any_case "MEDIAN" "median" /\
  (exists r, elliptical (Some 30) "Ampere" "MEDIAN" = Ok (Some r) /\ elliptical (Some 6) "ampere" "median" = Ok (Some r)) /\
  ~ (exists ni nm c0 l, In (ni, nm, c0, l) published /\ any_case "ampere" ni /\ any_case "ocb" nm).
Proof.
  assert (A1 : any_case "Ampere" "ampere") by names. assert (A2 : any_case "MEDIAN" "median") by names.
  assert (A3 : any_case "ampere" "ampere") by names. assert (A4 : any_case "median" "median") by names.
  assert (P : In ("median"%string, 4.01, 0.55, -0.92) published_ellipses) by (left; reflexivity).
  split; [exact A1|]. split; [exact P|]. split; [exact A2|]. split.
  - destruct (C57_elliptical "Ampere" "MEDIAN" _ _ _ _ A1 P A2 6) as (r & E & _ & F & _ & _ & K & _).
    exists r. split; [rewrite <- (K 1%Z); apply f_equal3; try reflexivity; apply f_equal; ring|].
    destruct (C57_elliptical "ampere" "median" _ _ _ _ A3 P A4 6) as (r' & E' & _ & F' & _). rewrite E'. congruence.
  - apply (C57_unknown_names (Some 0)). reflexivity.
Qed.
Print Assumptions C57_elliptical.
Print Assumptions C57_elliptical_extremes.
Print Assumptions C57_harmonic.
Print Assumptions C57_unknown_names.
Print Assumptions C57_circular.

(** ** C91 *)
(** With the default AMPERE correction the corrected radius stays positive at every
    local time exactly for boundaries larger than 4.01 (1 + 0.55) degrees. *)
Theorem C91_corrected_radius :
  forall r, (forall m c, elliptical (Some m) "ampere" "median" = Ok (Some c) -> r + c > 0) <-> r > 6.2155.
Proof.
  assert (A : any_case "ampere" "ampere") by names. assert (M : any_case "median" "median") by names.
  assert (P : In ("median"%string, 4.01, 0.55, -0.92) published_ellipses) by (left; reflexivity).
  intros r. split.
  - intros H. destruct (C57_elliptical_extremes _ _ _ _ _ _ A P M) as (m1 & m2 & _ & E). specialize (H _ _ E). lra.
  - intros R m c E. destruct (C57_elliptical _ _ _ _ _ _ A P M m) as (c' & E' & _ & _ & B & _). rewrite E in E'. injection E' as <-. lra.
Qed.
Example C91_case : (forall m c, elliptical (Some m) "ampere" "median" = Ok (Some c) -> 7 + c > 0) /\ ~ (forall m c, elliptical (Some m) "ampere" "median" = Ok (Some c) -> 6 + c > 0).
Proof. split; [apply C91_corrected_radius; lra|]. intros H. apply C91_corrected_radius in H. lra. Qed.
Print Assumptions C91_corrected_radius.
