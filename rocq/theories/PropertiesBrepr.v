(** C139, C140: the texts of boundary objects. *)
From Coq Require Import String Ascii Reals ZArith QArith List Bool Sorted Lia Lra PeanoNat.
From Verif Require Import PyBase PyString RangeModel CoordModel CycleModel TimeModel LoadModel LoadSpec LoadProofs PropertiesLoad PropertiesLoad2
  BreprModel BreprSpec BreprProofs BreprProofs2.
Import ListNotations.
Open Scope list_scope.

Lemma lower_char_idem c : lower_char (lower_char c) = lower_char c.
Proof. destruct c as [[|] [|] [|] [|] [|] [|] [|] [|]]; vm_compute; reflexivity. Qed.
Lemma lower_idem s : lower (lower s) = lower s.
Proof. induction s as [|c s IH]; [reflexivity|]. cbn [lower]. rewrite lower_char_idem, IH. reflexivity. Qed.

Lemma pick_again fs b f inst s e h file i s' e' : plain_defaults fs -> pick_file fs b f inst s e h = Ok (file, i) ->
  pick_file fs b (name_arg file) i s' e' h = Ok (file, i) /\ (forall n, file = Some n -> lower n <> "default"%string /\ exists j, i = Some j).
Proof.
  intros P. unfold pick_file. destruct inst as [j|]; [|intros E; injection E as <- <-; split; [reflexivity|discriminate]].
  assert (G : forall q j', lower j' = j' -> (forall n, q = Some n -> lower n <> "default"%string) ->
    Ok (match q with Some n => if file_ok fs n then Some n else None | None => None end, Some j') = Ok (file, i) ->
    match i with
    | None => Ok (None, None)
    | Some i0 => p <- (match name_arg file with
            | FNone | FNotString => Ok (None, lower i0)
            | FName s => if String.eqb (lower s) "default" then default_file fs s' e' h (lower i0) b else Ok (Some s, lower i0)
            end) ;;
      let '(s, i2) := p in
      Ok (match s with Some n => if file_ok fs n then Some n else None | None => None end, Some i2)
    end = Ok (file, i) /\ (forall n, file = Some n -> lower n <> "default"%string /\ exists j, i = Some j)).
  { intros q j' L N E. injection E as <- <-. rewrite L. destruct q as [n|]; [|split; [reflexivity|discriminate]].
    destruct (file_ok fs n) eqn:OKN; cbn [name_arg]; [|split; [reflexivity|discriminate]].
    rewrite (proj2 (String.eqb_neq _ _) (N n eq_refl)). cbn [bind]. rewrite OKN. split; [reflexivity|]. intros m X. injection X as <-. split; [apply N; reflexivity|eauto]. }
  destruct f as [| |t]; cbn [bind].
  - apply (G None (lower j)); [apply lower_idem|discriminate].
  - apply (G None (lower j)); [apply lower_idem|discriminate].
  - destruct (String.eqb_spec (lower t) "default") as [D|D].
    + destruct (default_file fs s e h (lower j) b) as [[q j']|] eqn:DF; cbn [bind]; [|discriminate]. destruct (P _ _ _ _ _ _ _ DF) as [L N]. apply (G q j' (L (lower_idem j)) N).
    + cbn [bind]. apply (G (Some t) (lower j)); [apply lower_idem|]. intros n X. injection X as <-. exact D.
Qed.

Section Round.
Context {F K : Type} (fmod fnam : corr F -> string) (ktext : K -> string) (kkeys : K -> list string)
        (feval : string -> res (corr F)) (keval : string -> res K).
Notation repr := (repr_call fmod fnam ktext kkeys).
Notation evaluated := (eval_call feval keval).

Lemma init_parts k fs f inst h lat s e (rf : given (corr F)) (kw : given K) noargs o :
  init k fs f inst h lat s e rf kw noargs = Ok o -> exists f' inst' rf', init_ocb fs f' inst' h lat s e rf' kw noargs = Ok o /\
    (k = OCB -> rf' = rf /\ f' = f /\ inst' = inst).
Proof.
  destruct k; cbn [init]; [intros E; do 3 eexists; split; [exact E|auto]|].
  unfold init_eab. destruct (match rf with GNone => _ | _ => _ end) as [rf'|]; cbn [bind]; [|discriminate].
  destruct (match f, inst with FName _, Some _ => _ | _, _ => _ end) as [[f' i']|]; cbn [bind fst snd]; [|discriminate].
  intros E. do 3 eexists. split; [exact E|discriminate].
Qed.
Lemma init_again k fs n i h lat s e (rf : given (corr F)) (kw : given K) noargs : rf <> GNone -> (forall t, n = Some t -> lower t <> "default"%string) ->
  init k fs (name_arg n) i h lat s e rf kw noargs = init_ocb fs (name_arg n) i h lat s e rf kw noargs.
Proof.
  intros N D. destruct k; cbn [init]; [reflexivity|]. unfold init_eab.
  destruct rf as [|a|l|]; [congruence|..]; cbn [bind];
    (destruct n as [t|]; cbn [name_arg]; [|reflexivity]; destruct i as [i|]; [|reflexivity]; rewrite (proj2 (String.eqb_neq _ _) (D t eq_refl)); reflexivity).
Qed.

(** ** C139 *)
(** The text of a boundary object, evaluated, gives the object. *)
Theorem C139_evaluates_partial :
  (* missing: records outside the times of the first and last one, latitudes with more than six
     decimals, correction functions without a file (the refutations below) *)
  (forall k fs f inst h lat s e rf kw noargs o d,
     plain_defaults fs -> init k fs f inst h lat s e rf kw noargs = Ok o -> o_data o = Some d ->
     bounded_by_ends (l_dtime d) -> six_decimals (o_lat o) ->
     Forall (fun g => feval (ftext fmod fnam g) = Ok g) (l_rfunc d) -> Forall (fun g => keval (ktext g) = Ok g) (l_kwargs d) ->
     exists c o', repr o = Ok c /\ evaluated k fs noargs c = Ok o' /\ same_boundary o o') /\
  (forall fs f inst h lat s e noargs o,
     plain_defaults fs -> init OCB fs f inst h lat s e GNone GNone noargs = Ok o -> o_file o = None -> six_decimals (o_lat o) ->
     exists c, repr o = Ok c /\ evaluated OCB fs noargs c = Ok o).
Proof.
  split.
  - intros k fs f inst h lat s e rf kw noargs o d P I D B SD RF KW.
    destruct (init_parts _ _ _ _ _ _ _ _ _ _ _ _ I) as (f' & inst' & rf' & I' & _). clear I.
    unfold init_ocb in I'. destruct (pick_file fs "ocb" f' inst' s e h) as [[file i]|] eqn:PF; cbn [bind] in I'; [|discriminate].
    destruct (init_lat h lat) as [y|] eqn:IL; cbn [bind] in I'; [|discriminate]. destruct (inst_defaults i) as [[[[hl cols] fmt] mn] mx] eqn:ID.
    destruct file as [n|]; [|injection I' as <-; cbn in D; discriminate].
    set (cols' := match cols with [] => image_cols | _ => cols end) in *.
    destruct (load cols' fmt s e i rf' kw noargs (table fs n hl cols')) as [d'|] eqn:LD; cbn [bind] in I'; [|discriminate]. injection I' as <-.
    cbn [o_data o_lat o_file o_inst] in *. subst d'.
    destruct B as (a & b & A1 & B1 & FA).
    assert (NE : l_dtime d <> []) by (intros X; rewrite X in A1; discriminate).
    assert (LEN : length (l_rfunc d) = length (l_dtime d) /\ length (l_kwargs d) = length (l_dtime d)).
    { clear - LD. unfold load in LD. destruct (time_flag cols') as [flag|]; [|discriminate].
      destruct (table fs n hl cols') as [|r0 [|r1 rows]]; [|discriminate|];
       (destruct (mapE _ _) as [times|]; cbn [bind] in LD; [|discriminate]; cbv zeta in LD;
        destruct (spread _ _ rf') as [l1|] eqn:S1; cbn [bind] in LD; [|discriminate]; destruct (spread _ _ kw) as [l2|] eqn:S2; cbn [bind] in LD; [|discriminate];
        destruct (attrs_of _ _ _ _); cbn [bind] in LD; [|discriminate]; injection LD as <-; cbn [l_rfunc l_kwargs l_dtime];
        apply spread_length in S1; apply spread_length in S2; rewrite map_length; auto). }
    destruct LEN as [L1 L2].
    destruct (summarise_eval (ftext fmod fnam) feval (l_rfunc d)) as (g1 & E1 & S1); [intros X; rewrite X in L1; destruct (l_dtime d); [congruence|discriminate]|exact RF|].
    destruct (summarise_eval ktext keval (l_kwargs d)) as (g2 & E2 & S2); [intros X; rewrite X in L2; destruct (l_dtime d); [congruence|discriminate]|exact KW|].
    assert (N1 : g1 <> GNone).
    { clear - E1. unfold summarise in E1. destruct (_ =? _)%nat; cbn [eval_shown] in E1; [destruct (feval _)|destruct (mapE _ _)]; cbn [bind] in E1; try discriminate; injection E1 as <-; discriminate. }
    destruct (pick_again fs "ocb" f' inst' s e h (Some n) i (Some a) (Some b) P PF) as [PA ND].
    pose proof (load_again cols' fmt s e i rf' kw noargs _ d g1 g2 LD (ex_intro _ a (ex_intro _ b (conj A1 (conj B1 FA)))) S1 S2) as LA. rewrite A1, B1 in LA.
    unfold repr_call. cbn [o_data o_file o_inst o_hemi o_lat]. rewrite getE_0, getE_last, A1, B1. cbn [bind fst snd].
    eexists. exists (mkObj (Some n) i h y mn mx g1 g2 (Some d)). split; [reflexivity|]. split.
    + unfold eval_call. cbn [c_rf c_kw c_file c_inst c_hemi c_lat c_stime c_etime]. rewrite E1. cbn [bind]. rewrite E2. cbn [bind].
      rewrite fixed6_exact by exact SD. rewrite init_again; [|exact N1|intros t X; injection X as <-; apply (ND n eq_refl)].
      unfold init_ocb. rewrite PA. cbn [bind]. rewrite (init_lat_twice _ _ _ IL). cbn [bind]. rewrite ID. fold cols'. rewrite LA. reflexivity.
    + unfold same_boundary. cbn. repeat match goal with |- _ /\ _ => split end; try reflexivity. discriminate.
  - intros fs f inst h lat s e noargs o P I FN SD. cbn [init] in I. unfold init_ocb in I.
    destruct (pick_file fs "ocb" f inst s e h) as [[file i]|] eqn:PF; cbn [bind] in I; [|discriminate].
    destruct (init_lat h lat) as [y|] eqn:IL; cbn [bind] in I; [|discriminate]. destruct (inst_defaults i) as [[[[hl cols] fmt] mn] mx] eqn:ID.
    destruct file as [n|]; [exfalso; destruct (load _ _ _ _ _ _ _ _ _); cbn [bind] in I; [|discriminate]; injection I as <-; discriminate FN|].
    injection I as <-. cbn [o_lat] in SD. unfold repr_call. cbn [o_data o_rf o_kw bind fst snd o_file o_inst o_hemi o_lat]. eexists. split; [reflexivity|].
    unfold eval_call. cbn [c_rf c_kw c_file c_inst c_hemi c_lat c_stime c_etime eval_shown bind init]. rewrite fixed6_exact by exact SD.
    destruct (pick_again fs "ocb" f inst s e h None i None None P PF) as [PA _].
    unfold init_ocb. rewrite PA. cbn [bind]. rewrite (init_lat_twice _ _ _ IL). cbn [bind]. rewrite ID. reflexivity.
Qed.
(** The latitude of an evaluated object has six decimals. *)
Lemma evaluated_six k fs noargs o c o' : repr o = Ok c -> evaluated k fs noargs c = Ok o' -> six_decimals (o_lat o').
Proof.
  intros R E. assert (L : c_lat c = fixed6 (o_lat o)).
  { unfold repr_call in R. do 3 (match type of R with bind ?m _ = _ => destruct m; cbn [bind] in R; [|discriminate] end). injection R as <-. reflexivity. }
  unfold eval_call in E. destruct (eval_shown feval _); cbn [bind] in E; [|discriminate]. destruct (eval_shown keval _); cbn [bind] in E; [|discriminate].
  destruct (init_parts _ _ _ _ _ _ _ _ _ _ _ _ E) as (f' & inst' & rf' & I' & _). unfold init_ocb in I'.
  destruct (pick_file _ _ _ _ _ _ _) as [[file i]|]; cbn [bind] in I'; [|discriminate].
  destruct (init_lat _ _) as [y|] eqn:IL; cbn [bind] in I'; [|discriminate]. destruct (inst_defaults i) as [[[[hl cols] fmt] mn] mx].
  assert (y = o_lat o') as <-.
  { destruct file; [destruct (load _ _ _ _ _ _ _ _ _); cbn [bind] in I'; [|discriminate]|]; injection I' as <-; reflexivity. }
  rewrite L in IL. eapply init_lat_six; [apply fixed6_six|exact IL].
Qed.
End Round.

(** A DualBoundary is written as its two boundaries and the time between them, and made
    again from these. *)
Theorem C139_dual {F K} fs (noargs : K) (e o : obj F K) max_delta : o_hemi o = o_hemi e -> (0 < max_delta)%R ->
  init_dual fs (FName "default") (FName "default") (Some "") (Some "") 1 64 74 None None GNone GNone GNone GNone noargs (Some e) (Some o) max_delta = Ok (e, o).
Proof.
  intros H M. unfold init_dual. rewrite !Rabs_right by lra. destruct (Rle_dec 74 64); [lra|]. destruct (Rle_dec max_delta 0); [lra|].
  cbn [bind]. rewrite H, Z.eqb_refl. reflexivity.
Qed.

(** *** What is lost *)
Definition demo_mod (f : corr unit) : string := "ocbpy.ocb_correction".
Definition demo_name (f : corr unit) : string := match f with Circular => "circular" | Elliptical => "elliptical" | User _ => "user" end.
Definition demo_feval (s : string) : res (corr unit) :=
  if String.eqb s "ocbpy.ocb_correction.circular" then Ok Circular
  else if String.eqb s "ocbpy.ocb_correction.elliptical" then Ok Elliptical else if String.eqb s "ocbpy.ocb_correction.user" then Ok (User tt) else Err NameError.
Definition demo_keval (s : string) : res unit := if String.eqb s "{}" then Ok tt else Err NameError.
Definition demo_repr := repr_call (F := unit) (K := unit) demo_mod demo_name (fun _ => "{}"%string) (fun _ => []).
Definition demo_eval := eval_call (F := unit) (K := unit) demo_feval demo_keval.

(** The object is not what its text evaluates to. *)
Definition text_loses (k : cls) (fs : files) (o : obj unit unit) : Prop :=
  exists c o', demo_repr o = Ok c /\ demo_eval k fs tt c = Ok o' /\ ~ same_boundary o o'.

(** Records of a file that is not in the order of time. *)
Definition shuffled_rows : list (list cell) :=
  [amp_row "20100101" "00:00" 11 1 (-2) (1#10); amp_row "20100101" "00:04" 13 2 (-3) (3#10); amp_row "20100101" "00:02" 12 1 (-3) (2#10)].
Definition shuffled : files := mkFiles (fun _ _ _ i _ => Ok (None, i)) (fun _ => true) (fun _ _ _ => shuffled_rows).
Lemma shuffled_load s e (rf : given (corr unit)) (kw : given unit) : rf = GNone \/ (exists f, rf = GOne f) -> kw = GNone \/ (exists k, kw = GOne k) ->
  exists d, load amp_cols amp_fmt s e (Some "ampere"%string) rf kw tt shuffled_rows = Ok (Some d) /\
    l_dtime d = map snd (keep s e 0 [amp_t0; amp_t0 + 240000000; amp_t0 + 120000000]%Z) /\
    l_rfunc d = repeat (match rf with GOne f => f | _ => Elliptical end) (length (l_dtime d)) /\ l_kwargs d = repeat tt (length (l_dtime d)).
Proof.
  intros RF KW. unfold load. change (time_flag amp_cols) with (Some false). unfold shuffled_rows at 1. fold shuffled_rows.
  assert (T : mapE (row_time false amp_cols amp_fmt) shuffled_rows = Ok [amp_t0; amp_t0 + 240000000; amp_t0 + 120000000]%Z) by (vm_compute; reflexivity).
  change [amp_row "20100101" "00:00" 11 1 (-2) (1#10); amp_row "20100101" "00:04" 13 2 (-3) (3#10); amp_row "20100101" "00:02" 12 1 (-3) (2#10)] with shuffled_rows.
  rewrite T. cbn [bind]. cbv zeta. set (kept := keep s e 0 _).
  assert (TB : Forall (fun row => length row = length amp_cols) shuffled_rows) by (repeat constructor).
  assert (IB : Forall (fun i => (i < length shuffled_rows)%nat) (map fst kept)).
  { pose proof (idx_bound s e [amp_t0; amp_t0 + 240000000; amp_t0 + 120000000]%Z _ (keep_selected s e _)) as X. exact X. }
  destruct (attrs_total amp_cols shuffled_rows (map fst kept) (names_of amp_cols) TB IB) as [at_ AT]; [auto|].
  destruct RF as [->|[f ->]], KW as [->|[[] ->]]; cbn [spread default_rfunc bind str_in existsb String.eqb Ascii.eqb Bool.eqb orb];
    rewrite AT; cbn [bind]; eexists; (split; [reflexivity|]); cbn [l_dtime l_rfunc l_kwargs]; rewrite map_length; auto.
Qed.
Definition amp_init (k : cls) (fs : files) (lat : R) (s e : option Z) (rf : given (corr unit)) : res (obj unit unit) :=
  init k fs (FName "amp.ocb") (Some "ampere"%string) 1 (Some lat) s e rf GNone tt.
Lemma amp_init_eq {F K} fs lat s e (rf : given (corr F)) (kw : given K) noargs d : file_ok fs "amp.ocb" = true -> (0 < lat)%R ->
  load amp_cols amp_fmt s e (Some "ampere"%string) rf kw noargs (table fs "amp.ocb" 0 amp_cols) = Ok (Some d) ->
  init OCB fs (FName "amp.ocb") (Some "ampere"%string) 1 (Some lat) s e rf kw noargs = Ok (mkObj (Some "amp.ocb"%string) (Some "ampere"%string) 1 lat (Fin (15 # 100)) PInf rf kw (Some d)).
Proof.
  intros OKF L LD. unfold init, init_ocb, pick_file. change (String.eqb (lower "amp.ocb") "default") with false. cbn [bind].
  rewrite OKF. cbn [bind]. unfold init_lat. cbn [Z.eqb Pos.eqb orb negb]. assert (S : sgn lat = 1%Z) by (unfold sgn; destruct (Rlt_dec 0 lat); [reflexivity|lra]). rewrite S.
  cbn [Z.eqb Pos.eqb bind]. change (inst_defaults (Some (lower "ampere"))) with (O, amp_cols, amp_fmt, Fin (15 # 100), PInf). cbv beta iota.
  change (lower "ampere") with "ampere"%string. change (match amp_cols with [] => image_cols | _ => amp_cols end) with amp_cols. rewrite LD. reflexivity.
Qed.
Lemma six_74 : six_decimals 74.
Proof. exists 74000000%Z. lra. Qed.
Theorem C139_order_refuted : exists o, amp_init OCB shuffled 74 None None GNone = Ok o /\ text_loses OCB shuffled o.
Proof.
  destruct (shuffled_load None None GNone GNone) as (d & LD & T & RF & KW); [auto..|].
  change (map snd (keep None None 0 [amp_t0; amp_t0 + 240000000; amp_t0 + 120000000]%Z)) with [amp_t0; amp_t0 + 240000000; amp_t0 + 120000000]%Z in T.
  destruct (shuffled_load (Some amp_t0) (Some (amp_t0 + 120000000)%Z) (GOne Elliptical) (GOne tt)) as (d' & LD' & T' & _); [eauto..|].
  eexists. split; [apply amp_init_eq; [reflexivity|lra|exact LD]|].
  rewrite T in RF, KW. cbn [length repeat] in RF, KW.
  eexists. exists (mkObj (Some "amp.ocb"%string) (Some "ampere"%string) 1 74 (Fin (15 # 100)) PInf (GOne Elliptical) (GOne tt) (Some d')). split; [|split].
  - unfold demo_repr, repr_call. cbn [o_data o_file o_inst o_hemi o_lat]. rewrite T, RF, KW, fixed6_exact by exact six_74. cbn [map demo_name].
    change (getE [amp_t0; amp_t0 + 240000000; amp_t0 + 120000000]%Z 0) with (Ok amp_t0). change (getE [amp_t0; amp_t0 + 240000000; amp_t0 + 120000000]%Z (-1)) with (Ok (amp_t0 + 120000000)%Z).
    cbn [bind]. reflexivity.
  - unfold demo_eval, eval_call. cbn [c_rf c_kw c_file c_inst c_hemi c_lat c_stime c_etime fst snd].
    change (eval_shown demo_feval (summarise (map (ftext demo_mod demo_name) [Elliptical; Elliptical; Elliptical]))) with (Ok (GOne (@Elliptical unit))). cbn [bind].
    change (eval_shown demo_keval (summarise (map (fun _ : unit => "{}"%string) [tt; tt; tt]))) with (Ok (GOne tt)). cbn [bind name_arg].
    apply amp_init_eq; [reflexivity|lra|exact LD'].
  - intros (_ & _ & _ & _ & _ & _ & D & _). cbn [o_data] in D. injection D as D. rewrite D in T'. rewrite T in T'. vm_compute in T'. discriminate T'.
Qed.
(** The latitude 70 + 1/3 has other decimals than those written. *)
Lemma no_six : ~ six_decimals (70 + 1 / 3).
Proof.
  intros [k E]. assert (X : IZR (3 * k) = IZR 211000000) by (rewrite mult_IZR; lra). apply eq_IZR in X. lia.
Qed.
Theorem C139_digits_refuted : exists o, init OCB no_files FNone (Some "image"%string) 1 (Some (70 + 1 / 3)%R) None None GNone GNone tt = Ok o /\ text_loses OCB no_files o.
Proof.
  assert (S : forall x, (0 < x)%R -> sgn x = 1%Z) by (intros x X; unfold sgn; destruct (Rlt_dec 0 x); [reflexivity|lra]).
  set (x := (70 + 1 / 3)%R). eexists. split.
  { unfold init, init_ocb, pick_file. cbn [bind]. unfold init_lat. cbn [Z.eqb Pos.eqb orb negb]. rewrite S by (unfold x; lra). cbn [Z.eqb Pos.eqb bind]. reflexivity. }
  assert (E : exists o', demo_eval OCB no_files tt (mkCall None (Some (lower "image")) 1 (fixed6 x) None None SNone SNone) = Ok o').
  { unfold demo_eval, eval_call, init, init_ocb, pick_file. cbn [c_rf c_kw c_file c_inst c_hemi c_lat c_stime c_etime eval_shown bind name_arg].
    unfold init_lat. cbn [Z.eqb Pos.eqb orb negb bind]. eexists. reflexivity. }
  destruct E as [o' E]. eexists. exists o'. split; [reflexivity|]. split; [exact E|].
  intros (_ & _ & _ & L & _). cbn [o_lat] in L. apply no_six. fold x. rewrite <- L.
  eapply (evaluated_six demo_mod demo_name (fun _ => "{}"%string) (fun _ => []) demo_feval demo_keval OCB no_files tt (mkObj None (Some (lower "image")) 1 x NInf (Fin 5) GNone GNone None)); [reflexivity|exact E].
Qed.
(** Without a file an array of functions becomes one function. *)
Theorem C139_unloaded_refuted : exists o, init OCB no_files FNone (Some "image"%string) 1 (Some 74%R) None None (GArray [Circular; Circular]) GNone tt = Ok o /\ text_loses OCB no_files o.
Proof.
  assert (S : sgn 74 = 1%Z) by (unfold sgn; destruct (Rlt_dec 0 74); [reflexivity|lra]).
  eexists. split.
  { unfold init, init_ocb, pick_file. cbn [bind]. unfold init_lat. cbn [Z.eqb Pos.eqb orb negb]. rewrite S. cbn [Z.eqb Pos.eqb bind]. reflexivity. }
  eexists. eexists. split; [unfold demo_repr, repr_call; cbn [o_data o_rf o_kw o_file o_inst o_hemi o_lat bind fst snd]; rewrite fixed6_exact by exact six_74; reflexivity|]. split.
  - unfold demo_eval, eval_call. cbn [c_rf c_kw c_file c_inst c_hemi c_lat c_stime c_etime].
    change (eval_shown demo_feval (summarise (map (ftext demo_mod demo_name) [Circular; Circular]))) with (Ok (GOne (@Circular unit))).
    unfold init, init_ocb, pick_file. cbn [bind name_arg eval_shown]. unfold init_lat. cbn [Z.eqb Pos.eqb orb negb]. rewrite S. cbn [Z.eqb Pos.eqb bind]. reflexivity.
  - intros (_ & _ & _ & _ & _ & _ & _ & R). specialize (R eq_refl). cbn [o_rf] in R. destruct R as [R _]. discriminate R.
Qed.
Example C139_case : exists o d c o', amp_init OCB one_file 74 (Some (amp_t0 + 120000000)%Z) None GNone = Ok o /\ o_data o = Some d /\ l_records d = 2%Z /\
  demo_repr o = Ok c /\ demo_eval OCB one_file tt c = Ok o' /\ same_boundary o o'.
Proof.
  destruct C44_case as (_ & _ & d & LD & N & T & _).
  assert (I : amp_init OCB one_file 74 (Some (amp_t0 + 120000000)%Z) None GNone = Ok (mkObj (Some "amp.ocb"%string) (Some "ampere"%string) 1 74 (Fin (15 # 100)) PInf GNone GNone (Some d))).
  { apply amp_init_eq; [reflexivity|lra|exact LD]. }
  destruct (proj1 (C139_evaluates_partial demo_mod demo_name (fun _ : unit => "{}"%string) (fun _ => []) demo_feval demo_keval)
      OCB one_file (FName "amp.ocb") (Some "ampere"%string) 1%Z (Some 74%R) (Some (amp_t0 + 120000000)%Z) None GNone GNone tt
      (mkObj (Some "amp.ocb"%string) (Some "ampere"%string) 1 74 (Fin (15 # 100)) PInf GNone GNone (Some d)) d) with (2 := I) as (c & o' & R & E & S).
  - intros s e h i b f i' X. cbn in X. injection X as <- <-. split; [auto|discriminate].
  - reflexivity.
  - rewrite T. exists (amp_t0 + 120000000)%Z, (amp_t0 + 240000000)%Z. split; [reflexivity|]. split; [reflexivity|]. repeat constructor; unfold amp_t0; lia.
  - exact six_74.
  - apply Forall_forall. intros g _. destruct g as [| |[]]; reflexivity.
  - apply Forall_forall. intros []. reflexivity.
  - do 4 eexists. repeat match goal with |- _ /\ _ => split end; try eassumption. reflexivity.
Qed.

(** ** C140 *)
Lemma shown_columns i hl cols fmt mn mx : inst_defaults i = (hl, cols, fmt, mn, mx) ->
  Forall (fun n => In n (names_of (match cols with [] => image_cols | _ => cols end))) ["phi_cent"; "r_cent"; "r"]%string.
Proof.
  unfold inst_defaults. destruct i as [i|]; [destruct (String.eqb i "image"); [|destruct (String.eqb i "ampere"); [|destruct (String.eqb i "dmsp-ssj")]]|];
    intros E; match type of E with (_, ?c, _, _, _) = _ => assert (C : c = cols) by congruence end; clear E; subst cols;
    apply Forall_forall; intros n [<-|[<-|[<-|[]]]]; cbn; tauto.
Qed.
Lemma record_lines_ok {F K} (d : loaded F K) idx : Forall (fun i => (i < length (l_dtime d))%nat) idx ->
  (forall n, In n ["phi_cent"; "r_cent"; "r"]%string -> exists l, assoc n (l_attrs d) = Some l /\ length l = length (l_dtime d)) ->
  exists rs, mapE (record_line d) idx = Ok rs /\
    Forall2 (fun i l => exists t a b c la lb lc, l = LRecord t a b c /\ nth_error (l_dtime d) i = Some t /\
      assoc "phi_cent" (l_attrs d) = Some la /\ assoc "r_cent" (l_attrs d) = Some lb /\ assoc "r" (l_attrs d) = Some lc /\
      nth_error la i = Some a /\ nth_error lb i = Some b /\ nth_error lc i = Some c) idx rs.
Proof.
  intros B AT. destruct (AT "phi_cent"%string) as (la & A1 & A2); [cbn; auto|]. destruct (AT "r_cent"%string) as (lb & B1 & B2); [cbn; auto|].
  destruct (AT "r"%string) as (lc & C1 & C2); [cbn; auto|].
  induction B as [|i idx I B IH]; [exists []; split; [reflexivity|constructor]|]. destruct IH as (rs & R & F2).
  assert (G : forall A (l : list A), (i < length l)%nat -> exists x, nth_error l i = Some x).
  { intros A l L. destruct (nth_error l i) as [x|] eqn:N; [eauto|]. apply nth_error_None in N. lia. }
  destruct (G _ (l_dtime d) I) as [t T]. destruct (G _ la) as [a A]; [lia|]. destruct (G _ lb) as [b B']; [lia|]. destruct (G _ lc) as [c C]; [lia|].
  exists (LRecord t a b c :: rs). split.
  - cbn [mapE]. unfold record_line at 1, attr. rewrite A1, B1, C1, !getE_nat, T, A, B', C. cbn [bind]. rewrite R. reflexivity.
  - constructor; [|exact F2]. exists t, a, b, c, la, lb, lc. auto 12.
Qed.

Section Strings.
Context {F K : Type} (fmod fnam : corr F -> string) (ktext : K -> string) (order : list string -> list string).
Notation lines := (str_lines fmod fnam ktext order).

(** The functions whose names agree are the same one. *)
Definition short_names_differ (fs : list (corr F)) : Prop :=
  forall f g, In f fs -> In g fs -> fnam f = fnam g -> fmod f = fmod g.

(** A boundary with a file is a loaded one. *)
Lemma file_loaded k fs f inst h lat s e rf kw noargs (o : obj F K) : init k fs f inst h lat s e rf kw noargs = Ok o -> o_file o <> None -> exists d, o_data o = Some d.
Proof.
  intros I FN. destruct (init_parts _ _ _ _ _ _ _ _ _ _ _ _ I) as (f' & inst' & rf' & I' & _). clear I. unfold init_ocb in I'.
  destruct (pick_file fs "ocb" f' inst' s e h) as [[file i]|]; cbn [bind] in I'; [|discriminate].
  destruct (init_lat h lat) as [y|]; cbn [bind] in I'; [|discriminate]. destruct (inst_defaults i) as [[[[hl cols] fmt] mn] mx] eqn:ID.
  destruct file as [m|]; [|injection I' as <-; cbn in FN; congruence].
  destruct (load _ _ _ _ _ _ _ _ _) as [d'|] eqn:LD; cbn [bind] in I'; [|discriminate]. injection I' as <-. cbn [o_data].
  assert (T : exists b, time_flag (match cols with [] => image_cols | _ => cols end) = Some b).
  { clear - ID. revert ID. unfold inst_defaults. destruct i as [i|]; [destruct (String.eqb i "image"); [|destruct (String.eqb i "ampere"); [|destruct (String.eqb i "dmsp-ssj")]]|];
    intros E; match type of E with (_, ?c, _, _, _) = _ => assert (C : c = cols) by congruence end; clear E; subst cols; eexists; reflexivity. }
  destruct T as [b T]. unfold load in LD. rewrite T in LD.
  match type of LD with match ?r with _ => _ end = _ => destruct r as [|r0 [|r1 rows]] end; try discriminate LD;
    (match type of LD with bind ?x _ = _ => destruct x; cbn [bind] in LD; [|discriminate] end; cbv zeta in LD;
     do 3 (match type of LD with bind ?x _ = _ => destruct x; cbn [bind] in LD; [|discriminate] end); injection LD as <-; eauto).
Qed.
(** The text shows the first two and the last two records and every correction with its
    keyword arguments. *)
Theorem C140_text_partial :
  (* missing: functions of the same name in different modules (C140_modules_refuted) *)
  (forall k fs f inst h lat s e rf kw noargs (o : obj F K), init k fs f inst h lat s e rf kw noargs = Ok o -> o_file o = None -> lines o = Ok [LNoFile]) /\
  (forall k fs f inst h lat s e rf kw noargs (o : obj F K), init k fs f inst h lat s e rf kw noargs = Ok o -> o_file o <> None -> exists d, o_data o = Some d) /\
  (forall k fs f inst h lat s e rf kw noargs (o : obj F K) n d,
     init k fs f inst h lat s e rf kw noargs = Ok o -> o_file o = Some n -> o_data o = Some d ->
     lists_a_set order -> Forall (fun g => no_dot (fnam g)) (l_rfunc d) ->
     exists ls i, lines o = Ok ls /\ o_inst o = Some i /\
       (l_dtime d = [] -> ls = [LFile n; LInst i; LLat (o_lat o); LNoData]) /\
       (l_dtime d <> [] ->
          exists t0 t1 idx rs gs, ls = [LFile n; LInst i; LLat (o_lat o); LPeriod (Z.of_nat (length (l_dtime d))) t0 t1; LHead] ++ rs ++ [LUses] ++ gs /\
            hd_error (l_dtime d) = Some t0 /\ hd_error (rev (l_dtime d)) = Some t1 /\
            (* records *)
            StronglySorted lt idx /\ (forall j, In j idx <-> near_an_end (length (l_dtime d)) j) /\
            Forall2 (fun j l => exists t a b c la lb lc, l = LRecord t a b c /\ nth_error (l_dtime d) j = Some t /\
              assoc "phi_cent" (l_attrs d) = Some la /\ assoc "r_cent" (l_attrs d) = Some lb /\ assoc "r" (l_attrs d) = Some lc /\
              nth_error la j = Some a /\ nth_error lb j = Some b /\ nth_error lc j = Some c) idx rs /\
            (* corrections, each once *)
            NoDup gs /\ Forall (fun l => exists a b, l = LFunc a b) gs /\
            (forall j g q, nth_error (l_rfunc d) j = Some g -> nth_error (l_kwargs d) j = Some q -> In (LFunc (ftext fmod fnam g) (ktext q)) gs) /\
            (short_names_differ (l_rfunc d) -> forall a b, In (LFunc a b) gs ->
               exists j g q, nth_error (l_rfunc d) j = Some g /\ nth_error (l_kwargs d) j = Some q /\ a = ftext fmod fnam g /\ b = ktext q))).
Proof.
  split; [|split].
  - intros k fs f inst h lat s e rf kw noargs o _ N. unfold str_lines. rewrite N. reflexivity.
  - intros. eapply file_loaded; eassumption.
  - intros k fs f inst h lat s e rf kw noargs o n d I FN DN ORD ND.
    destruct (init_parts _ _ _ _ _ _ _ _ _ _ _ _ I) as (f' & inst' & rf' & I' & _). clear I. unfold init_ocb in I'.
    destruct (pick_file fs "ocb" f' inst' s e h) as [[file i]|] eqn:PF; cbn [bind] in I'; [|discriminate].
    destruct (init_lat h lat) as [y|]; cbn [bind] in I'; [|discriminate]. destruct (inst_defaults i) as [[[[hl cols] fmt] mn] mx] eqn:ID.
    destruct file as [m|]; [|injection I' as <-; discriminate FN].
    destruct (load _ _ _ _ _ _ _ _ _) as [d'|] eqn:LD; cbn [bind] in I'; [|discriminate]. injection I' as <-. cbn [o_file o_data o_lat o_inst] in *.
    injection FN as ->. subst d'. destruct (load_parts _ _ _ _ _ _ _ _ _ _ LD) as (LR & L1 & L2 & AT).
    assert (II : exists j, i = Some j).
    { clear - PF. unfold pick_file in PF. destruct inst' as [j|]; [|discriminate]. match type of PF with bind ?x _ = _ => destruct x as [[q j']|]; cbn [bind] in PF; [|discriminate] end.
      injection PF as _ <-. eauto. }
    destruct II as [j ->]. unfold str_lines. cbn [o_file o_inst o_data o_lat bind]. rewrite LR.
    destruct (l_dtime d) as [|t l] eqn:DT; [exists [LFile n; LInst j; LLat y; LNoData], j; split; [reflexivity|]; split; [reflexivity|]; split; [reflexivity|congruence]|].
    assert (NZ : (Z.of_nat (length (t :: l)) =? 0)%Z = false) by (apply Z.eqb_neq; cbn [length]; lia). rewrite NZ. rewrite <- DT in *. clear NZ.
    assert (POS : (0 < length (l_dtime d))%nat) by (rewrite DT; cbn; lia).
    rewrite getE_0, getE_last. destruct (hd_error (l_dtime d)) as [t0|] eqn:H0; [|rewrite DT in H0; discriminate].
    destruct (hd_error (rev (l_dtime d))) as [t1|] eqn:H1; [|rewrite hd_rev in H1; apply nth_error_None in H1; lia]. cbn [bind].
    rewrite Nat2Z.id. destruct (records_shown_spec (length (l_dtime d)) POS) as (idx & RS & SS & IN). rewrite RS. cbn [bind].
    destruct (record_lines_ok d idx) as (rs & R & F2).
    { apply Forall_forall. intros x X. apply IN in X. destruct X as [X _]. exact X. }
    { intros x X. apply AT. pose proof (shown_columns _ _ _ _ _ _ ID) as SC. rewrite Forall_forall in SC. apply SC. exact X. }
    rewrite R. cbn [bind]. destruct (func_lines_spec fmod fnam ktext order ORD d) as (gs & G & NG & FG & IG); [congruence|]. rewrite G. cbn [bind].
    eexists. exists j. split; [reflexivity|]. split; [reflexivity|]. split; [intros X; rewrite X in DT; discriminate|]. intros _.
    exists t0, t1, idx, rs, gs. split; [reflexivity|]. split; [reflexivity|]. split; [reflexivity|]. split; [exact SS|]. split; [exact IN|]. split; [exact F2|]. split; [exact NG|]. split; [|split].
    + eapply Forall_impl; [|exact FG]. intros [] X; try discriminate X. eauto.
    + intros x g q A B. apply IG. split; [exists g; split; [eapply nth_error_In; exact A|reflexivity]|]. exists x, g, q. split; [exact A|]. split; [exact B|]. split; [|reflexivity].
      unfold ftext. rewrite last_part_app; [reflexivity|]. rewrite Forall_forall in ND. apply ND. eapply nth_error_In. exact A.
    + intros SN a b X. apply IG in X. destruct X as [(g & Ig & ->) (x & g' & q & A & B & C & ->)].
      assert (E : fnam g' = fnam g).
      { rewrite C. unfold ftext. apply last_part_app. rewrite Forall_forall in ND. apply ND. exact Ig. }
      exists x, g', q. split; [exact A|]. split; [exact B|]. split; [|reflexivity]. unfold ftext. rewrite E. rewrite (SN g g'); auto. eapply nth_error_In. exact A.
Qed.
End Strings.

(** *** Functions of the same name *)
Definition two_mod (f : corr bool) : string := match f with User false => "first" | User true => "second" | _ => "ocbpy.ocb_correction" end.
Definition two_name (f : corr bool) : string := match f with Circular => "circular" | Elliptical => "elliptical" | User _ => "shift" end.
Definition two_args (k : bool) : string := if k then "{'mlt': 2}" else "{'mlt': 1}".
Definition two_rf : given (corr bool) := GArray [User false; User true; User true].
Definition two_kw : given bool := GArray [false; true; true].
Lemma two_load : exists d, load amp_cols amp_fmt None None (Some "ampere"%string) two_rf two_kw false shuffled_rows = Ok (Some d) /\
  l_dtime d = [amp_t0; amp_t0 + 240000000; amp_t0 + 120000000]%Z /\ l_rfunc d = [User false; User true; User true] /\ l_kwargs d = [false; true; true].
Proof.
  unfold load. change (time_flag amp_cols) with (Some false). unfold shuffled_rows at 1. fold shuffled_rows.
  assert (T : mapE (row_time false amp_cols amp_fmt) shuffled_rows = Ok [amp_t0; amp_t0 + 240000000; amp_t0 + 120000000]%Z) by (vm_compute; reflexivity).
  change [amp_row "20100101" "00:00" 11 1 (-2) (1#10); amp_row "20100101" "00:04" 13 2 (-3) (3#10); amp_row "20100101" "00:02" 12 1 (-3) (2#10)] with shuffled_rows.
  rewrite T. cbn [bind]. cbv zeta. change (keep None None 0 [amp_t0; amp_t0 + 240000000; amp_t0 + 120000000]%Z) with [(0%nat, amp_t0); (1%nat, (amp_t0 + 240000000)%Z); (2%nat, (amp_t0 + 120000000)%Z)].
  assert (TB : Forall (fun row => length row = length amp_cols) shuffled_rows) by (repeat constructor).
  destruct (attrs_total amp_cols shuffled_rows [0; 1; 2]%nat (names_of amp_cols) TB) as [at_ AT]; [repeat constructor|auto|].
  cbn [spread two_rf two_kw length Nat.eqb bind map fst snd]. rewrite AT. cbn [bind]. eexists. split; [reflexivity|]. auto.
Qed.
(** Each of two functions with the same name is shown with the keyword arguments of the other. *)
Theorem C140_modules_refuted : exists o d, init OCB shuffled (FName "amp.ocb") (Some "ampere"%string) 1 (Some 74%R) None None two_rf two_kw false = Ok o /\ o_data o = Some d /\
  forall order, lists_a_set order -> exists ls, str_lines two_mod two_name two_args order o = Ok ls /\
    In (LFunc "first.shift" "{'mlt': 2}") ls /\
    ~ exists j g q, nth_error (l_rfunc d) j = Some g /\ nth_error (l_kwargs d) j = Some q /\ ftext two_mod two_name g = "first.shift"%string /\ two_args q = "{'mlt': 2}"%string.
Proof.
  destruct two_load as (d & LD & T & RF & KW). eexists. exists d. split; [apply amp_init_eq; [reflexivity|lra|exact LD]|]. split; [reflexivity|]. intros order ORD.
  set (o := mkObj _ _ _ _ _ _ _ _ _).
  assert (I : init OCB shuffled (FName "amp.ocb") (Some "ampere"%string) 1 (Some 74%R) None None two_rf two_kw false = Ok o) by (apply amp_init_eq; [reflexivity|lra|exact LD]).
  assert (N : Forall (fun g => no_dot (two_name g)) (l_rfunc d)) by (rewrite RF; repeat constructor).
  destruct (proj2 (proj2 (C140_text_partial two_mod two_name two_args order)) _ _ _ _ _ _ _ _ _ _ _ o "amp.ocb"%string d I eq_refl eq_refl ORD N) as (ls & i & E & _ & _ & S).
  destruct S as (t0 & t1 & idx & rs & gs & L & _); [rewrite T; discriminate|]. exists ls. split; [exact E|]. split.
  - unfold str_lines in E. subst o. cbn [o_file o_inst o_data o_lat bind] in E.
    destruct (func_lines_spec two_mod two_name two_args order ORD d) as (gs' & G & _ & _ & IG); [rewrite RF, KW; reflexivity|].
    assert (IN : In (LFunc "first.shift" "{'mlt': 2}") gs').
    { apply IG. split; [exists (User false); split; [rewrite RF; left; reflexivity|reflexivity]|]. exists 1%nat, (User true), true. rewrite RF, KW. repeat split. }
    rewrite G in E. destruct (l_records d =? 0)%Z eqn:Z0.
    { exfalso. pose proof (proj1 (load_parts _ _ _ _ _ _ _ _ _ _ LD)) as LR. rewrite T in LR. rewrite LR in Z0. discriminate Z0. }
    destruct (getE (l_dtime d) 0); cbn [bind] in E; [|discriminate]. destruct (getE (l_dtime d) (-1)); cbn [bind] in E; [|discriminate].
    destruct (records_shown _); cbn [bind] in E; [|discriminate]. destruct (mapE (record_line d) _); cbn [bind] in E; [|discriminate].
    injection E as <-. cbn [app In]. do 5 right. apply in_or_app. right. right. exact IN.
  - intros (j & g & q & A & B & C & D). rewrite RF in A. rewrite KW in B.
    destruct j as [|[|[|j]]]; cbn in A, B; try discriminate A; try (destruct j; discriminate A); injection A as <-; injection B as <-; [discriminate D|discriminate C|discriminate C].
Qed.
Example C140_case : exists o d, init OCB shuffled (FName "amp.ocb") (Some "ampere"%string) 1 (Some 74%R) None None GNone GNone tt = Ok o /\ o_file o = Some "amp.ocb"%string /\
  o_data o = Some d /\ lists_a_set (nodup string_dec) /\ Forall (fun g => no_dot (demo_name g)) (l_rfunc d) /\ length (l_dtime d) = 3%nat /\ short_names_differ demo_mod demo_name (l_rfunc d) /\
  near_an_end 3 1 /\ ~ near_an_end 5 2.
Proof.
  destruct (shuffled_load None None GNone GNone) as (d & LD & T & RF & KW); [auto..|].
  eexists. exists d. split; [apply amp_init_eq; [reflexivity|lra|exact LD]|]. split; [reflexivity|]. split; [reflexivity|]. split.
  { intros l. split; [apply NoDup_nodup|]. intros x. apply nodup_In. }
  split; [apply Forall_forall; intros g _; destruct g; reflexivity|]. split; [rewrite T; reflexivity|]. split; [intros f g _ _ _; reflexivity|].
  unfold near_an_end. lia.
Qed.
Print Assumptions C139_evaluates_partial.
Print Assumptions C139_dual.
Print Assumptions C139_order_refuted.
Print Assumptions C139_digits_refuted.
Print Assumptions C139_unloaded_refuted.
Print Assumptions C140_text_partial.
Print Assumptions C140_modules_refuted.
