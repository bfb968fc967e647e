(** C92-C97: corrections, centres and construction of boundaries. *)
From Coq Require Import String Reals Qreals ZArith QArith List Bool Sorted Lia Lra.
From Verif Require Import PyBase PyString RangeModel CoordModel CoordSpec TimeModel CycleModel CycleSpec LoadModel LoadSpec LoadProofs
  CorrectionSpec CorrectionProofs PropertiesCoord PropertiesLoad.
Import ListNotations.
Open Scope list_scope.

(** ** C92 *)
Theorem C92_correction_per_record :
  forall F K cols fmt stime etime inst (rf : given (corr F)) (kw : given K) noargs rows d,
    is_table cols rows -> load cols fmt stime etime inst rf kw noargs rows = Ok (Some d) ->
    Z.of_nat (length (l_rfunc d)) = l_records d /\ Z.of_nat (length (l_kwargs d)) = l_records d /\
    (* the default of the instrument, the function given, or the array given *)
    (rf = GNone -> inst = Some "ampere"%string /\ Forall (eq Elliptical) (l_rfunc d) \/
                   (inst = Some "image"%string \/ inst = Some "dmsp-ssj"%string) /\ Forall (eq Circular) (l_rfunc d)) /\
    (forall f, rf = GOne f -> Forall (eq f) (l_rfunc d)) /\ (forall l, rf = GArray l -> l_rfunc d = l) /\
    (kw = GNone -> Forall (eq noargs) (l_kwargs d)) /\
    (forall k, kw = GOne k -> Forall (eq k) (l_kwargs d)) /\ (forall l, kw = GArray l -> l_kwargs d = l).
Proof.
  intros F K cols fmt stime etime inst rf kw noargs rows d T H.
  destruct (load_spec _ _ _ _ _ _ _ _ _ _ T H) as (_ & times & idx & _ & _ & C & _ & _ & S1 & L1 & S2 & L2 & _).
  assert (R : forall A (a : A) n, Forall (eq a) (repeat a n)).
  { intros A a n. apply Forall_forall. intros x X. symmetry. eapply repeat_spec. exact X. }
  rewrite L1, L2, C. split; [reflexivity|]. split; [reflexivity|].
  split.
  { intros ->. destruct S1 as (dd & D & ->). unfold default_rfunc in D. destruct inst as [i|]; [|discriminate].
    destruct (str_in i ["image"; "dmsp-ssj"]%string) eqn:I.
    - injection D as <-. right. split; [|apply R]. apply str_in_spec in I. destruct I as [<-|[<-|[]]]; auto.
    - destruct (String.eqb_spec i "ampere") as [->|]; [|discriminate]. injection D as <-. left. auto. }
  split; [intros f ->; cbn in S1; rewrite S1; apply R|]. split; [intros l ->; exact (proj1 S1)|].
  split; [intros ->; destruct S2 as (dd & D & ->); injection D as <-; apply R|].
  split; [intros f ->; cbn in S2; rewrite S2; apply R|intros l ->; exact (proj1 S2)].
Qed.
(** Corrections that do not fit, or an instrument without default, are refused. *)
Theorem C92_misfit_refused :
  forall F K cols fmt stime etime inst (rf : given (corr F)) (kw : given K) noargs rows times idx,
    is_table cols rows -> year_file cols \/ date_file cols -> length rows <> 1%nat -> Forall2 (stamped cols fmt) rows times ->
    selected stime etime times idx ->
    (exists l, rf = GArray l /\ length l <> length idx) \/ rf = GOther \/
    (rf = GNone /\ ~ In inst [Some "image"; Some "ampere"; Some "dmsp-ssj"]%string) \/
    (exists l, kw = GArray l /\ length l <> length idx) \/ kw = GOther ->
    load cols fmt stime etime inst rf kw noargs rows = Err ValueError.
Proof.
  intros F K cols fmt stime etime inst rf kw noargs rows times idx [N W] TC L T SEL B.
  unfold load. destruct (time_flag_spec cols) as (F1 & F2 & F3).
  destruct (time_flag cols) as [flag|] eqn:TF; [|exfalso; tauto].
  pose proof (keep_selected stime etime times) as SEL2.
  assert (LEN : length (keep stime etime 0 times) = length idx).
  { rewrite <- (map_length fst). eapply selected_length; eassumption. }
  assert (E : (times <- mapE (row_time flag cols fmt) rows ;;
          let kept := keep stime etime O times in
          let n := length kept in
          fs <- spread n (default_rfunc inst) rf ;;
          ks <- spread n (Ok noargs) kw ;;
          attrs <- attrs_of cols rows (map fst kept) (names_of cols) ;;
          Ok (Some (mkLoaded (Z.of_nat n) (-1)%Z (map snd kept) fs ks attrs))) = Err ValueError).
  { rewrite (proj2 (times_spec cols fmt rows times flag N TF) T). cbn [bind]. cbv zeta. rewrite LEN.
    assert (SE : forall A (dd : res A) (g : given A) e, (forall e', dd = Err e' -> e' = ValueError) -> spread (length idx) dd g = Err e -> e = ValueError).
    { intros A dd g e HD. unfold spread. destruct g.
      - destruct dd; cbn; [discriminate|]. intros X. injection X as <-. auto.
      - discriminate.
      - destruct (_ =? _)%nat; [discriminate|congruence].
      - congruence. }
    assert (HD : forall e', @default_rfunc F inst = Err e' -> e' = ValueError).
    { intros e'. unfold default_rfunc. destruct inst as [i|]; [|congruence]. destruct (str_in _ _); [discriminate|]. destruct (String.eqb _ _); [discriminate|congruence]. }
    destruct (spread (length idx) (default_rfunc inst) rf) as [fs|e] eqn:E1; cbn [bind]; [|f_equal; exact (SE _ _ _ _ HD E1)].
    destruct (spread (length idx) (Ok noargs) kw) as [ks|e] eqn:E2; cbn [bind].
    2:{ f_equal. refine (SE _ _ _ _ _ E2). discriminate. }
    exfalso. apply spread_spec in E1. apply spread_spec in E2. destruct B as [(l & -> & X)|[->|[[-> X]|[(l & -> & X)| ->]]]].
    - apply X. exact (proj2 E1).
    - exact E1.
    - destruct E1 as (dd & D & _). unfold default_rfunc in D. destruct inst as [i|]; [|discriminate].
      destruct (str_in i ["image"; "dmsp-ssj"]%string) eqn:I.
      + apply str_in_spec in I. apply X. destruct I as [<-|[<-|[]]]; cbn; auto.
      + destruct (String.eqb_spec i "ampere") as [->|]; [|discriminate]. apply X. cbn. auto.
    - apply X. exact (proj2 E2).
    - exact E2. }
  destruct rows as [|r [|r' rows]]; [exact E|contradiction L; reflexivity|exact E].
Qed.
Example C92_case : exists d : loaded unit unit,
  load amp_cols amp_fmt (Some (amp_t0 + 120000000)%Z) None (Some "ampere"%string) GNone GNone tt amp_rows = Ok (Some d) /\ l_rfunc d = [Elliptical; Elliptical] /\
  load amp_cols amp_fmt (Some (amp_t0 + 120000000)%Z) None (Some "ampere"%string) (GArray [User tt; User tt; User tt]) (GNone (A := unit)) tt amp_rows = Err ValueError.
Proof.
  destruct (C44_loads_partial unit unit amp_cols amp_fmt (Some (amp_t0 + 120000000)%Z) None (Some "ampere"%string) GNone GNone tt amp_rows amp_times) as [d E].
  - exact amp_table.
  - right. exact amp_date.
  - discriminate.
  - exact amp_stamped.
  - left. split; [reflexivity|]. cbn. auto.
  - left. reflexivity.
  - exists d. split; [exact E|]. split.
    + destruct (load_spec _ _ _ _ _ _ _ _ _ _ amp_table E) as (_ & times & idx & A & B & _ & _ & _ & S1 & _).
      assert (times = amp_times) as ->.
      { pose proof (proj2 (times_spec amp_cols amp_fmt amp_rows amp_times false (proj1 amp_table) eq_refl) amp_stamped) as X.
        pose proof (proj2 (times_spec amp_cols amp_fmt amp_rows times false (proj1 amp_table) eq_refl) A) as Y. congruence. }
      rewrite <- (selected_length _ _ _ _ _ amp_selected B) in S1. cbn in S1. destruct S1 as (dd & D & ->). injection D as <-. reflexivity.
    + eapply C92_misfit_refused; [exact amp_table|right; exact amp_date|discriminate|exact amp_stamped|exact amp_selected|].
      left. eexists. split; [reflexivity|]. discriminate.
Qed.
Print Assumptions C92_correction_per_record.
Print Assumptions C92_misfit_refused.

(** ** C93 *)
Theorem C93_centre_from_xy :
  forall F K cols fmt stime etime inst (rf : given (corr F)) (kw : given K) noargs rows d,
    is_table cols rows -> In "x"%string cols -> In "y"%string cols ->
    load cols fmt stime etime inst rf kw noargs rows = Ok (Some d) ->
    exists times idx rs ps, Forall2 (stamped cols fmt) rows times /\ selected stime etime times idx /\
      In ("r_cent"%string, rs) (l_attrs d) /\ In ("phi_cent"%string, ps) (l_attrs d) /\ length rs = length idx /\ length ps = length idx /\
      (forall name sel, In (name, sel) (l_attrs d) -> (name = "r_cent"%string -> sel = rs) /\ (name = "phi_cent"%string -> sel = ps)) /\
      forall k i row qx qy, nth_error idx k = Some i -> nth_error rows i = Some row ->
        entry cols row "x" (CFlt (Fin qx)) -> entry cols row "y" (CFlt (Fin qy)) ->
        exists rc pc, nth_error rs k = Some (VReal (Some rc)) /\ nth_error ps k = Some (VReal (Some pc)) /\
          (0 <= rc)%R /\ (0 <= pc < 360)%R /\
          (* the centre of the boundary is x to dawn and y to noon *)
          forall r f, centre (mkRec r rc pc f) = (- Q2R qy, Q2R qx)%R.
Proof.
  intros F K cols fmt stime etime inst rf kw noargs rows d T X Y H.
  destruct (load_spec _ _ _ _ _ _ _ _ _ _ T H) as (_ & times & idx & A & B & _ & _ & _ & _ & _ & _ & _ & G & I).
  assert (XY : has_xy cols = true) by (unfold has_xy; rewrite !(proj2 (str_in_spec _ _)) by assumption; reflexivity).
  assert (NM : In "r_cent"%string (names_of cols) /\ In "phi_cent"%string (names_of cols)).
  { unfold names_of. rewrite XY. split; apply in_or_app; right; cbn; auto. }
  rewrite <- G in NM. destruct NM as [N1 N2]. apply in_map_iff in N1. apply in_map_iff in N2.
  destruct N1 as ([? rs] & E1 & I1), N2 as ([? ps] & E2 & I2). cbn in E1, E2. subst.
  pose proof (I _ _ I1) as C1. pose proof (I _ _ I2) as C2. destruct T as [N W].
  assert (U : forall name sel sel', column_of cols rows idx name sel -> column_of cols rows idx name sel' -> sel = sel').
  { clear. intros name sel sel' P. revert sel'. induction P as [|i v idx' sel P1 P2 IH]; intros sel' Q; inversion Q as [|? v' ? ? Q1 Q2]; subst; [reflexivity|].
    destruct P1 as (r1 & R1 & V1), Q1 as (r2 & R2 & V2). f_equal; [congruence|].
    apply IH. exact Q2. }
  exists times, idx, rs, ps. split; [exact A|]. split; [exact B|]. split; [exact I1|]. split; [exact I2|].
  split; [symmetry; eapply F2_length; exact C1|]. split; [symmetry; eapply F2_length; exact C2|]. split.
  { intros name sel J. split; intros ->; (eapply U; [exact (I _ _ J)|assumption]). }
  intros k i row qx qy K1 K2 EX EY.
  assert (NE : forall name sel v0, column_of cols rows idx name sel -> value_of cols row name = Some v0 -> nth_error sel k = Some v0).
  { intros name sel v0 P V. clear - K1 K2 P V. revert k K1. induction P as [|j v idx' sel P1 P2 IH]; intros [|k] K1; cbn in *; try discriminate; auto.
    injection K1 as ->. destruct P1 as (r & R & V'). congruence. }
  apply cell_of_entry in EX; [|exact N]. apply cell_of_entry in EY; [|exact N].
  pose proof (C45_cartesian_centre (Q2R qx) (Q2R qy)) as CC.
  destruct (centre_of_xy (Q2R qx) (Q2R qy)) as [rc pc] eqn:E. exists rc, pc.
  split; [apply (NE "r_cent"%string rs); [exact C1|]; unfold value_of; rewrite XY, EX, EY; cbn [real_of fmap2 andb String.eqb Ascii.eqb Bool.eqb]; rewrite E; reflexivity|].
  split; [apply (NE "phi_cent"%string ps); [exact C2|]; unfold value_of; rewrite XY, EX, EY; cbn [real_of fmap2 andb String.eqb Ascii.eqb Bool.eqb]; rewrite E; reflexivity|].
  destruct (CC 0%R (fun m => m)) as (P1 & P2 & _). split; [exact P1|]. split; [exact P2|]. intros r f. exact (proj2 (proj2 (CC r f))).
Qed.
Example C93_case : In "x"%string amp_cols /\ In "y"%string amp_cols /\ nth_error amp_rows 1 = Some (amp_row "20100101" "00:02" 12 1 (-3) (2#10)) /\
  entry amp_cols (amp_row "20100101" "00:02" 12 1 (-3) (2#10)) "x" (CFlt (Fin 1)) /\ entry amp_cols (amp_row "20100101" "00:02" 12 1 (-3) (2#10)) "y" (CFlt (Fin (-3))).
Proof. split; [cbn; auto 6|]. split; [cbn; auto 6|]. split; [reflexivity|]. split; [exists 3%nat|exists 4%nat]; split; reflexivity. Qed.
Print Assumptions C93_centre_from_xy.

(** ** C94 *)
Definition unreadable (fs : files) (f : fname) (inst : option string) : Prop :=
  inst = None \/ f = FNone \/ f = FNotString \/ exists s, f = FName s /\ ~ any_case s "default" /\ file_ok fs s = false.
Theorem C94_unloaded_without_file :
  forall F K fs f inst h lat stime etime (rf : given (corr F)) (kw : given K) noargs,
    (h = 1 \/ h = -1)%Z -> unreadable fs f inst ->
    exists o, init_ocb fs f inst h (Some lat) stime etime rf kw noargs = Ok o /\
      o_data o = None /\ o_file o = None /\ o_hemi o = h /\ o_inst o = option_map lower inst /\ init_lat h (Some lat) = Ok (o_lat o).
Proof.
  intros F K fs f inst h lat stime etime rf kw noargs H U. unfold init_ocb.
  assert (P : pick_file fs "ocb" f inst stime etime h = Ok (None, option_map lower inst)).
  { unfold pick_file. destruct inst as [i|]; [|reflexivity]. destruct U as [U|[->|[->|(s & -> & NC & FO)]]]; [discriminate|reflexivity|reflexivity|].
    destruct (String.eqb_spec (lower s) "default") as [E|E].
    - exfalso. apply NC. apply lower_any_case; [cbn; lia|exact E].
    - cbn [bind]. rewrite FO. reflexivity. }
  rewrite P. cbn [bind]. assert (L : exists l, init_lat h (Some lat) = Ok l).
  { unfold init_lat. destruct H as [->| ->]; cbn [Z.eqb Pos.eqb orb negb]; eauto. }
  destruct L as [l L]. rewrite L. cbn [bind]. destruct (inst_defaults _) as [[[[hl cols] fmt] mn] mx]. eexists. split; [reflexivity|]. auto.
Qed.
Theorem C94_readable_is_loaded :
  forall F K fs s i h lat stime etime (rf : given (corr F)) (kw : given K) noargs,
    (h = 1 \/ h = -1)%Z -> ~ any_case s "default" -> file_ok fs s = true ->
    forall o, init_ocb fs (FName s) (Some i) h (Some lat) stime etime rf kw noargs = Ok o ->
      o_file o = Some s /\ o_inst o = Some (lower i) /\ o_hemi o = h /\ exists d, o_data o = Some d.
Proof.
  intros F K fs s i h lat stime etime rf kw noargs H NC FO o. unfold init_ocb, pick_file.
  destruct (String.eqb_spec (lower s) "default") as [E|E]; [exfalso; apply NC; apply lower_any_case; [cbn; lia|exact E]|].
  cbn [bind]. rewrite FO. destruct (init_lat h (Some lat)) as [l|] eqn:L; cbn [bind]; [|discriminate].
  destruct (inst_defaults (Some (lower i))) as [[[[hl cols] fmt] mn] mx] eqn:ID. set (cols' := match cols with [] => image_cols | _ => cols end).
  destruct (load cols' fmt stime etime (Some (lower i)) rf kw noargs (table fs s hl cols')) as [d|] eqn:LD; cbn [bind]; [|discriminate].
  intros X. injection X as <-. cbn. split; [reflexivity|]. split; [reflexivity|]. split; [reflexivity|].
  destruct d as [d|]; [eauto|exfalso]. apply C44_times_needed in LD. destruct LD as [L1 L2].
  unfold inst_defaults in ID. destruct (String.eqb (lower i) "image").
  { injection ID as <- <- <- <- <-. apply L1. split; cbn; auto. }
  destruct (String.eqb (lower i) "ampere").
  { injection ID as <- <- <- <- <-. apply L2. split; cbn; auto. }
  destruct (String.eqb (lower i) "dmsp-ssj").
  { injection ID as <- <- <- <- <-. apply L2. split; cbn; auto. }
  injection ID as <- <- <- <- <-. apply L1. split; cbn; auto.
Qed.
Theorem C94_bad_hemisphere :
  forall F K fs f inst h lat stime etime (rf : given (corr F)) (kw : given K) noargs p,
    h <> 1%Z -> h <> (-1)%Z -> pick_file fs "ocb" f inst stime etime h = Ok p ->
    init_ocb fs f inst h lat stime etime rf kw noargs = Err ValueError.
Proof.
  intros F K fs f inst h lat stime etime rf kw noargs [file i] H1 H2 P. unfold init_ocb. rewrite P. cbn [bind]. unfold init_lat.
  rewrite (proj2 (Z.eqb_neq h 1) H1), (proj2 (Z.eqb_neq h (-1)) H2). reflexivity.
Qed.
(** The name "default" in any case: the file is the default one for the window, hemisphere and
    instrument asked for, of the type of the boundary. *)
Definition opened (fs : files) (q : option string) {F K} (o : obj F K) : Prop :=
  (forall n, q = Some n -> file_ok fs n = true -> o_file o = Some n) /\
  (q = None \/ (exists n, q = Some n /\ file_ok fs n = false) -> o_file o = None /\ o_data o = None).
Theorem C94_default_file :
  forall F K fs s i h lat stime etime (rf : given (corr F)) (kw : given K) noargs q i2 o,
    any_case s "default" -> default_file fs stime etime h (lower i) "ocb" = Ok (q, i2) ->
    init_ocb fs (FName s) (Some i) h lat stime etime rf kw noargs = Ok o -> opened fs q o /\ o_inst o = Some i2 /\ o_hemi o = h.
Proof.
  intros F K fs s i h lat stime etime rf kw noargs q i2 o A D. apply lower_any_case in A; [|cbn; lia]. unfold init_ocb, pick_file. rewrite A. cbn [String.eqb Ascii.eqb Bool.eqb]. rewrite D. cbn [bind].
  destruct (init_lat h lat) as [l|]; cbn [bind]; [|discriminate]. destruct (inst_defaults (Some i2)) as [[[[hl cols] fmt] mn] mx].
  destruct q as [n|]; [destruct (file_ok fs n) eqn:FO|].
  - destruct (load _ _ _ _ _ _ _ _ _) as [d|]; cbn [bind]; [|discriminate]. intros X. injection X as <-. cbn. split; [|auto]. split.
    + intros n' E _. exact E.
    + intros [E|(n' & E & FF)]; [discriminate|]. injection E as <-. congruence.
  - intros X. injection X as <-. cbn. split; [|auto]. split; [|auto]. intros n' E FF. injection E as <-. congruence.
  - intros X. injection X as <-. cbn. split; [|auto]. split; [|auto]. intros n' E. discriminate.
Qed.
Theorem C94_default_eab_file :
  forall F K fs s i h lat stime etime (rf : given (corr F)) (kw : given K) noargs q i2 o,
    any_case s "default" -> default_file fs stime etime h i "eab" = Ok (q, i2) -> (forall n, q = Some n -> ~ any_case n "default") ->
    init_eab fs (FName s) (Some i) h lat stime etime rf kw noargs = Ok o -> opened fs q o /\ o_inst o = Some (lower i2) /\ o_hemi o = h.
Proof.
  intros F K fs s i h lat stime etime rf kw noargs q i2 o A D ND. apply lower_any_case in A; [|cbn; lia]. unfold init_eab. rewrite A. cbn [String.eqb Ascii.eqb Bool.eqb]. rewrite D. cbn [bind fst snd].
  match goal with |- (r <- ?m ;; _) = _ -> _ => destruct m as [rf'|] end; cbn [bind]; [|discriminate]. unfold init_ocb.
  assert (P : pick_file fs "ocb" (match q with Some n => FName n | None => FNone end) (Some i2) stime etime h = Ok (match q with Some n => if file_ok fs n then Some n else None | None => None end, Some (lower i2))).
  { destruct q as [n|]; [|reflexivity]. unfold pick_file. destruct (String.eqb_spec (lower n) "default") as [E|E]; [|reflexivity]. exfalso. apply (ND n eq_refl). apply lower_any_case; [cbn; lia|exact E]. }
  rewrite P. cbn [bind]. destruct (init_lat h lat) as [l|]; cbn [bind]; [|discriminate]. destruct (inst_defaults (Some (lower i2))) as [[[[hl cols] fmt] mn] mx].
  destruct q as [n|]; [destruct (file_ok fs n) eqn:FO|].
  - destruct (load _ _ _ _ _ _ _ _ _) as [d|]; cbn [bind]; [|discriminate]. intros X. injection X as <-. cbn. split; [|auto]. split.
    + intros n' E _. exact E.
    + intros [E|(n' & E & FF)]; [discriminate|]. injection E as <-. congruence.
  - intros X. injection X as <-. cbn. split; [|auto]. split; [|auto]. intros n' E FF. injection E as <-. congruence.
  - intros X. injection X as <-. cbn. split; [|auto]. split; [|auto]. intros n' E. discriminate.
Qed.
Definition no_files : files := mkFiles (fun _ _ _ i _ => Ok (None, i)) (fun _ => false) (fun _ _ _ => []).
Definition one_file : files := mkFiles (fun _ _ _ i _ => Ok (None, i)) (fun _ => true) (fun _ _ _ => amp_rows).
Example C94_case : unreadable no_files (FName "missing.ocb") (Some "AMPERE"%string) /\ file_ok one_file "amp.ocb" = true /\
  exists o : obj unit unit, init_ocb one_file (FName "amp.ocb") (Some "AMPERE"%string) 1 (Some 74%R) None None GNone GNone tt = Ok o /\ o_inst o = Some "ampere"%string.
Proof.
  assert (ND : ~ any_case "amp.ocb" "default").
  { intros A. apply lower_any_case in A; [discriminate A|cbn; lia]. }
  split. { right. right. right. exists "missing.ocb"%string. split; [reflexivity|]. split; [|reflexivity].
    intros A. apply lower_any_case in A; [discriminate A|cbn; lia]. }
  split; [reflexivity|].
  destruct (C44_loads_partial unit unit amp_cols amp_fmt None None (Some "ampere"%string) GNone GNone tt amp_rows amp_times) as [d E];
    [exact amp_table|right; exact amp_date|discriminate|exact amp_stamped|left; split; [reflexivity|cbn; auto]|left; reflexivity|].
  eexists. split.
  - unfold init_ocb, pick_file. change (String.eqb (lower "amp.ocb") "default") with false. cbn [bind file_ok one_file].
    unfold init_lat. cbn [Z.eqb Pos.eqb orb negb bind]. change (inst_defaults (Some (lower "AMPERE"))) with (O, amp_cols, amp_fmt, Fin (15 # 100), PInf).
    cbn [table]. change (lower "AMPERE") with "ampere"%string. change (match amp_cols with [] => image_cols | _ => amp_cols end) with amp_cols. change (table one_file "amp.ocb" 0 amp_cols) with amp_rows. rewrite E. cbn [bind]. reflexivity.
  - reflexivity.
Qed.
Definition amp_default : files := mkFiles (fun _ _ h i b => Ok (if (h =? 1)%Z && String.eqb b "ocb" then Some "amp.ocb"%string else None, i)) (fun _ => true) (fun _ _ _ => amp_rows).
Example C94_default_case : any_case "DEFAULT" "default" /\ default_file amp_default None None 1 "ampere" "ocb" = Ok (Some "amp.ocb"%string, "ampere"%string) /\
  exists o : obj unit unit, init_ocb amp_default (FName "DEFAULT") (Some "Ampere"%string) 1 (Some 74%R) None None GNone GNone tt = Ok o /\ o_file o = Some "amp.ocb"%string /\
  exists e : obj unit unit, init_eab amp_default (FName "DEFAULT") (Some "ampere"%string) 1 (Some 64%R) None None GNone GNone tt = Ok e /\ o_file e = None.
Proof.
  split; [apply lower_any_case; [cbn; lia|reflexivity]|]. split; [reflexivity|].
  destruct (C44_loads_partial unit unit amp_cols amp_fmt None None (Some "ampere"%string) GNone GNone tt amp_rows amp_times) as [d E];
    [exact amp_table|right; exact amp_date|discriminate|exact amp_stamped|left; split; [reflexivity|cbn; auto]|left; reflexivity|].
  eexists. split.
  - unfold init_ocb, pick_file. change (String.eqb (lower "DEFAULT") "default") with true. change (lower "Ampere") with "ampere"%string.
    cbn [bind default_file amp_default Z.eqb Pos.eqb String.eqb Ascii.eqb Bool.eqb andb file_ok]. unfold init_lat. cbn [Z.eqb Pos.eqb orb negb bind].
    change (inst_defaults (Some "ampere"%string)) with (O, amp_cols, amp_fmt, Fin (15 # 100), PInf). cbv iota beta zeta. change (match amp_cols with [] => image_cols | _ => amp_cols end) with amp_cols.
    change (table amp_default "amp.ocb" 0 amp_cols) with amp_rows. rewrite E. cbn [bind]. reflexivity.
  - split; [reflexivity|]. eexists. split.
    { unfold init_eab. change (String.eqb (lower "DEFAULT") "default") with true. cbn [bind default_eab_rfunc default_file amp_default String.eqb Ascii.eqb Bool.eqb andb fst snd Z.eqb Pos.eqb]. change (str_in "ampere" [""; "default"; "image"; "dmsp-ssj"; "ampere"]) with true. cbv iota. cbn [bind]. unfold init_ocb, pick_file. cbn [bind]. unfold init_lat. cbn [Z.eqb Pos.eqb orb negb bind]. reflexivity. }
    reflexivity.
Qed.
Print Assumptions C94_unloaded_without_file.
Print Assumptions C94_readable_is_loaded.
Print Assumptions C94_bad_hemisphere.
Print Assumptions C94_default_file.
Print Assumptions C94_default_eab_file.

(** ** C95 *)
(** Without a correction of one's own, EABoundary accepts exactly these instrument
    names, in lower case. *)
Theorem C95_eab_instruments_partial :
  (* missing: the documented names si12, si13 and wic, C95_documented_refuted; other cases,
     C95_case_refuted *)
  forall F K fs i h lat stime etime (kw : given K) noargs,
    (h = 1 \/ h = -1)%Z ->
    ((exists o, init_eab (F := F) fs FNone (Some i) h (Some lat) stime etime GNone kw noargs = Ok o /\ o_rf o = GOne Circular /\ o_data o = None) <->
     In i [""; "default"; "image"; "dmsp-ssj"; "ampere"]%string).
Proof.
  intros F K fs i h lat stime etime kw noargs H. unfold init_eab, default_eab_rfunc.
  assert (L : exists l, init_lat h (Some lat) = Ok l).
  { unfold init_lat. destruct H as [->| ->]; cbn [Z.eqb Pos.eqb orb negb]; eauto. }
  destruct L as [l L]. destruct (str_in i _) eqn:I.
  - apply str_in_spec in I. split; [auto|intros _]. cbn [bind fst snd]. unfold init_ocb, pick_file. cbn [bind]. rewrite L. cbn [bind].
    destruct (inst_defaults _) as [[[[hl cols] fmt] mn] mx]. eexists. split; [reflexivity|]. auto.
  - split; [intros (o & X & _); discriminate|]. intros J. apply str_in_spec in J. congruence.
Qed.
Theorem C95_documented_refuted :
  forall F K fs f i h lat stime etime (kw : given K) noargs, In i ["si12"; "si13"; "wic"]%string ->
    init_eab (F := F) fs f (Some i) h lat stime etime GNone kw noargs = Err ValueError.
Proof. intros F K fs f i h lat stime etime kw noargs [<-|[<-|[<-|[]]]]; reflexivity. Qed.
Theorem C95_case_refuted :
  exists K (kw : given K) noargs fs,
    (exists o, init_ocb (F := unit) fs FNone (Some "IMAGE"%string) 1 (Some 74%R) None None GNone kw noargs = Ok o) /\
    init_eab (F := unit) fs FNone (Some "IMAGE"%string) 1 (Some 64%R) None None GNone kw noargs = Err ValueError.
Proof.
  exists unit, GNone, tt, no_files. split; [|reflexivity].
  destruct (C94_unloaded_without_file unit unit no_files FNone (Some "IMAGE"%string) 1 74%R None None GNone GNone tt) as (o & E & _); [auto|right; left; reflexivity|].
  exists o. exact E.
Qed.
Example C95_case : In "image"%string [""; "default"; "image"; "dmsp-ssj"; "ampere"]%string. Proof. cbn. auto. Qed.
Print Assumptions C95_eab_instruments_partial.
Print Assumptions C95_documented_refuted.
Print Assumptions C95_case_refuted.

Lemma init_ocb_hemi {F K} fs f i h lat stime etime rf kw noargs (b : obj F K) :
  init_ocb fs f i h (Some lat) stime etime rf kw noargs = Ok b -> o_hemi b = h /\ Rabs (o_lat b) = Rabs lat.
Proof.
  unfold init_ocb. destruct (pick_file _ _ _ _ _ _ _) as [[file i2]|]; cbn [bind]; [|discriminate].
  destruct (init_lat h (Some lat)) as [l|] eqn:L; cbn [bind]; [|discriminate].
  assert (AL : Rabs l = Rabs lat).
  { unfold init_lat in L. destruct (negb _); [discriminate|]. destruct (sgn lat =? h)%Z; injection L as <-; [reflexivity|].
    replace (lat * -1)%R with (- lat)%R by ring. apply Rabs_Ropp. }
  destruct (inst_defaults i2) as [[[[hl cols] fmt] mn] mx]. destruct file as [n|].
  - destruct (load _ _ _ _ _ _ _ _ _); cbn [bind]; [|discriminate]. intros X. injection X as <-. auto.
  - intros X. injection X as <-. auto.
Qed.
Lemma init_eab_hemi {F K} fs f i h lat stime etime rf kw noargs (b : obj F K) :
  init_eab fs f i h (Some lat) stime etime rf kw noargs = Ok b -> o_hemi b = h /\ Rabs (o_lat b) = Rabs lat.
Proof.
  unfold init_eab. intros E1.
  destruct (match rf with GNone => _ | _ => _ end) as [rf'|]; cbn [bind] in E1; [|discriminate].
  match type of E1 with bind ?m _ = _ => destruct m as [[f2 i2]|]; cbn [bind fst snd] in E1; [|discriminate] end.
  exact (init_ocb_hemi _ _ _ _ _ _ _ _ _ _ _ E1).
Qed.

(** ** C96 *)
(** A dual boundary whose parts are constructed from the arguments has both in the
    requested hemisphere and the OCB poleward of the EAB. *)
Theorem C96_dual_poleward_partial :
  (* missing: boundaries passed as objects, C96_objects_refuted *)
  forall F K fs ef of_ ei oi h el ol stime etime erf ekw orf okw (noargs : K) md (e o : obj F K),
    init_dual fs ef of_ ei oi h el ol stime etime erf ekw orf okw noargs None None md = Ok (e, o) ->
    (0 < md)%R /\ o_hemi e = h /\ o_hemi o = h /\ (Rabs (o_lat e) < Rabs (o_lat o))%R.
Proof.
  intros F K fs ef of_ ei oi h el ol stime etime erf ekw orf okw noargs md e o. unfold init_dual.
  destruct (Rle_dec _ _) as [|NL]; [discriminate|]. destruct (Rle_dec md 0) as [|NM]; [discriminate|].
  destruct (init_eab fs ef ei h (Some el) stime etime erf ekw noargs) as [e'|] eqn:E1; cbn [bind]; [|discriminate].
  destruct (init_ocb fs of_ oi h (Some ol) stime etime orf okw noargs) as [o'|] eqn:E2; cbn [bind]; [|discriminate].
  destruct (_ =? _)%Z; [|discriminate]. intros X. injection X as <- <-.
  destruct (init_ocb_hemi _ _ _ _ _ _ _ _ _ _ _ E2) as [H2 A2]. destruct (init_eab_hemi _ _ _ _ _ _ _ _ _ _ _ E1) as [H1 A1]. split; [lra|]. split; [exact H1|]. split; [exact H2|]. rewrite A1, A2. lra.
Qed.
(** Objects given to the constructor are not compared. *)
Theorem C96_objects_refuted :
  exists fs (e o : obj unit unit), (Rabs (o_lat o) < Rabs (o_lat e))%R /\
    init_dual fs FNone FNone None None 1 64 74 None None GNone GNone GNone GNone tt (Some e) (Some o) 60 = Ok (e, o).
Proof.
  exists no_files, (mkObj None None 1 74 NInf PInf GNone GNone None), (mkObj None None 1 64 NInf PInf GNone GNone None). cbn [o_lat].
  split; [rewrite !Rabs_pos_eq; lra|]. unfold init_dual.
  destruct (Rle_dec (Rabs 74) (Rabs 64)) as [L|L]; [rewrite !Rabs_pos_eq in L; lra|]. destruct (Rle_dec 60 0); [lra|]. reflexivity.
Qed.
(** Any mismatch of the hemispheres, order of the reference latitudes or time tolerance that
    is not positive is refused. *)
Theorem C96_dual_refused :
  forall F K fs ef of_ ei oi h el ol stime etime erf ekw orf okw (noargs : K) (e o : obj F K) md,
    (Rabs ol <= Rabs el)%R \/ (md <= 0)%R \/ o_hemi e <> o_hemi o ->
    init_dual fs ef of_ ei oi h el ol stime etime erf ekw orf okw noargs (Some e) (Some o) md = Err ValueError.
Proof.
  intros F K fs ef of_ ei oi h el ol stime etime erf ekw orf okw noargs e o md H. unfold init_dual.
  destruct (Rle_dec _ _); [reflexivity|]. destruct (Rle_dec md 0); [reflexivity|]. cbn [bind].
  destruct (Z.eqb_spec (o_hemi o) (o_hemi e)); [|reflexivity]. destruct H as [H|[H|H]]; [lra|lra|congruence].
Qed.
Example C96_case : exists (e o : obj unit unit),
  init_dual no_files FNone FNone (Some "image"%string) (Some "image"%string) (-1) 64 74 None None GNone GNone GNone GNone tt None None 60 = Ok (e, o) /\ o_hemi e = (-1)%Z.
Proof.
  destruct (proj2 (C95_eab_instruments_partial unit unit no_files "image" (-1) 64%R None None GNone tt (or_intror eq_refl))) as (e & E1 & _); [cbn; auto|].
  destruct (C94_unloaded_without_file unit unit no_files FNone (Some "image"%string) (-1) 74%R None None GNone GNone tt) as (o & E2 & _ & _ & H2 & _); [auto|right; left; reflexivity|].
  pose proof (proj1 (init_eab_hemi _ _ _ _ _ _ _ _ _ _ _ E1)) as H1.
  exists e, o. split; [|exact H1]. unfold init_dual. destruct (Rle_dec (Rabs 74) (Rabs 64)) as [L|L]; [rewrite !Rabs_pos_eq in L; lra|].
  destruct (Rle_dec 60 0); [lra|]. rewrite E1, E2. cbn [bind]. rewrite H1, H2. reflexivity.
Qed.
Print Assumptions C96_dual_poleward_partial.
Print Assumptions C96_objects_refuted.
Print Assumptions C96_dual_refused.

(** ** C97 *)
Lemma load_dtime {F K} cols fmt stime etime inst (rf : given (corr F)) (kw : given K) noargs rows d :
  load cols fmt stime etime inst rf kw noargs rows = Ok (Some d) -> l_records d = Z.of_nat (length (l_dtime d)).
Proof.
  unfold load. destruct (time_flag cols); [|discriminate].
  assert (E : forall flag, (times <- mapE (row_time flag cols fmt) rows ;;
          let kept := keep stime etime O times in
          let n := length kept in
          fs <- spread n (default_rfunc inst) rf ;;
          ks <- spread n (Ok noargs) kw ;;
          attrs <- attrs_of cols rows (map fst kept) (names_of cols) ;;
          Ok (Some (mkLoaded (Z.of_nat n) (-1)%Z (map snd kept) fs ks attrs))) = Ok (Some d) -> l_records d = Z.of_nat (length (l_dtime d))).
  { intros flag. destruct (mapE _ _) as [times|]; cbn [bind]; [|discriminate]. cbv zeta. destruct (spread _ _ rf); cbn [bind]; [|discriminate].
    destruct (spread _ _ kw); cbn [bind]; [|discriminate]. destruct (attrs_of _ _ _ _); cbn [bind]; [|discriminate].
    intros X. injection X as <-. cbn. rewrite map_length. reflexivity. }
  destruct rows as [|r [|r' rows]]; [apply E|discriminate|apply E].
Qed.
Theorem C97_repr_partial :
  (* missing: boundaries loaded without records and EABoundary objects without file,
     C97_empty_refuted and C97_eab_refuted *)
  forall F K fs s i h lat stime etime (rf : given (corr F)) (kw : given K) noargs o,
    init_ocb fs (FName s) (Some i) h lat stime etime rf kw noargs = Ok o ->
    (forall d, o_data o = Some d -> (0 < l_records d)%Z) -> rf = GNone -> kw = GNone ->
    repr_ok o = Ok tt.
Proof.
  intros F K fs s i h lat stime etime rf kw noargs o E P -> ->.
  assert (R : o_rf o = GNone /\ o_kw o = GNone /\ forall d, o_data o = Some d -> l_records d = Z.of_nat (length (l_dtime d))).
  { unfold init_ocb in E. destruct (pick_file _ _ _ _ _ _ _) as [[file i2]|]; cbn [bind] in E; [|discriminate].
    destruct (init_lat h lat); cbn [bind] in E; [|discriminate]. destruct (inst_defaults i2) as [[[[hl cols] fmt] mn] mx].
    destruct file; [destruct (load _ _ _ _ _ _ _ _ _) as [d|] eqn:LD; cbn [bind] in E; [|discriminate]|]; injection E as <-; (split; [reflexivity|]; split; [reflexivity|]).
    - intros d' X. cbn in X. subst d. exact (load_dtime _ _ _ _ _ _ _ _ _ _ LD).
    - intros d X. discriminate X. }
  unfold repr_ok. destruct R as (-> & -> & L). destruct (o_data o) as [d|]; [|reflexivity].
  specialize (P d eq_refl). specialize (L d eq_refl). destruct (l_dtime d) as [|t l]; [cbn in L; lia|].
  unfold getE, py_get. cbn [length] in *. rewrite Nat2Z.inj_succ.
  assert (N : exists u, nth_error (t :: l) (Z.to_nat (Z.succ (Z.of_nat (length l)) + -1)) = Some u).
  { destruct (nth_error (t :: l) (Z.to_nat (Z.succ (Z.of_nat (length l)) + -1))) as [u|] eqn:N; [eauto|]. apply nth_error_None in N. cbn [length] in N. lia. }
  destruct N as [u N].
  rewrite (proj2 (Z.leb_le 0 0)), (proj2 (Z.ltb_lt 0 _)) by lia. cbn [andb Z.to_nat nth_error bind].
  rewrite (proj2 (Z.leb_gt 0 (-1))) by lia. cbn [andb]. rewrite (proj2 (Z.leb_le _ (-1))) by lia. cbn [Z.ltb Z.compare andb].
  rewrite N. reflexivity.
Qed.
(** A window without records leaves an object that cannot be printed. *)
Theorem C97_empty_refuted :
  exists fs (o : obj unit unit), init_ocb fs (FName "amp.ocb") (Some "ampere"%string) 1 (Some 74%R) (Some (amp_t0 + 1000000000)%Z) None GNone GNone tt = Ok o /\
    repr_ok o = Err IndexError.
Proof.
  exists one_file.
  destruct (C44_loads_partial unit unit amp_cols amp_fmt (Some (amp_t0 + 1000000000)%Z) None (Some "ampere"%string) GNone GNone tt amp_rows amp_times) as [d E];
    [exact amp_table|right; exact amp_date|discriminate|exact amp_stamped|left; split; [reflexivity|cbn; auto]|left; reflexivity|].
  destruct (load_spec _ _ _ _ _ _ _ _ _ _ amp_table E) as (_ & times & idx & A & B & C & _ & D & _).
  assert (times = amp_times) as ->.
  { pose proof (proj2 (times_spec amp_cols amp_fmt amp_rows amp_times false (proj1 amp_table) eq_refl) amp_stamped) as X.
    pose proof (proj2 (times_spec amp_cols amp_fmt amp_rows times false (proj1 amp_table) eq_refl) A) as Y. congruence. }
  assert (idx = []) as ->.
  { destruct idx as [|i idx]; [reflexivity|exfalso]. destruct B as [_ B]. destruct (proj1 (B i) (or_introl eq_refl)) as (t & X & [Y _]).
    specialize (Y _ eq_refl). destruct i as [|[|[|i]]]; cbn in X; try (injection X as <-; unfold amp_t0 in Y; lia). destruct i; discriminate X. }
  eexists. split.
  - unfold init_ocb, pick_file. change (String.eqb (lower "amp.ocb") "default") with false. cbn [bind file_ok one_file].
    unfold init_lat. cbn [Z.eqb Pos.eqb orb negb bind]. change (inst_defaults (Some (lower "ampere"))) with (O, amp_cols, amp_fmt, Fin (15 # 100), PInf).
    cbn [table]. change (lower "ampere") with "ampere"%string. change (match amp_cols with [] => image_cols | _ => amp_cols end) with amp_cols. change (table one_file "amp.ocb" 0 amp_cols) with amp_rows. rewrite E. cbn [bind]. reflexivity.
  - unfold repr_ok. cbn [o_data]. inversion D. reflexivity.
Qed.
Theorem C97_eab_refuted :
  forall F K fs i h lat stime etime (kw : given K) noargs o,
    init_eab (F := F) fs FNone (Some i) h (Some lat) stime etime GNone kw noargs = Ok o -> repr_ok o = Err TypeError.
Proof.
  intros F K fs i h lat stime etime kw noargs o. unfold init_eab, default_eab_rfunc. destruct (str_in i _); cbn [bind]; [|discriminate].
  cbn [fst snd]. unfold init_ocb, pick_file. cbn [bind]. destruct (init_lat h (Some lat)); cbn [bind]; [|discriminate].
  destruct (inst_defaults _) as [[[[hl cols] fmt] mn] mx]. intros X. injection X as <-. reflexivity.
Qed.
Example C97_case : exists o : obj unit unit, init_ocb no_files (FName "missing.ocb") (Some "image"%string) 1 (Some 74%R) None None GNone GNone tt = Ok o /\ repr_ok o = Ok tt.
Proof.
  destruct (C94_unloaded_without_file unit unit no_files (FName "missing.ocb") (Some "image"%string) 1 74%R None None GNone GNone tt) as (o & E & D & _).
  - auto.
  - right. right. right. exists "missing.ocb"%string. split; [reflexivity|]. split; [|reflexivity]. intros A. apply lower_any_case in A; [discriminate A|cbn; lia].
  - exists o. split; [exact E|]. eapply C97_repr_partial; [exact E| |reflexivity|reflexivity]; intros d X; congruence.
Qed.
Print Assumptions C97_repr_partial.
Print Assumptions C97_empty_refuted.
Print Assumptions C97_eab_refuted.
