(** C122-C125: rounding, the period asked for, missing latitudes and unusable input. *)
From Coq Require Import String Ascii ZArith QArith Qabs Qround List Bool Lia Lqa Sorted.
From Verif Require Import PyBase TimeModel TimeSpec TimeProofs TimeProofs3 TextSpec TextProofs FilesModel FilesProofs SmagModel SmagSpec VortModel VortSpec CycleModel CycleSpec CycleProofs DriverModel DriverSpec DriverProofs
  PysatModel PysatSpec PysatProofs2 GeneralProofs LoadProofs PropertiesCycle PropertiesSmag PropertiesVort PropertiesPysat OutputModel OutputSpec OutputProofs OutputProofs2 OutputProofs3 OutputProofs4 OutputProofs5 PropertiesOutput.
Import ListNotations.
Open Scope string_scope.
Open Scope list_scope.
Open Scope Z_scope.

(** ** C122 *)
(** A local time below 24 h minus half a unit of the last decimal is written below 24 h... *)
Theorem C122_local_time_partial n x s : (0 <= x)%Q -> (x * inject_Z (10 ^ Z.of_nat n) + (1 # 2) < inject_Z (24 * 10 ^ Z.of_nat n))%Q -> shows n (Fin x) s ->
  exists z, signed n z s /\ 0 <= z < 24 * 10 ^ Z.of_nat n.
Proof.
  intros X0 X1 (z & S & A). exists z. split; [exact S|]. set (p := 10 ^ Z.of_nat n) in *. assert (P : (0 < inject_Z p)%Q). { change 0%Q with (inject_Z 0). rewrite <- Zlt_Qlt. apply Z.pow_pos_nonneg; lia. }
  apply Qabs_Qle_condition in A. assert (XP : (0 <= x * inject_Z p)%Q) by (apply Qmult_le_0_compat; lra). split.
  - assert (L : (inject_Z (-1) < inject_Z z)%Q) by (change (inject_Z (-1)) with (-1)%Q; lra). rewrite <- Zlt_Qlt in L. lia.
  - rewrite Zlt_Qlt. lra.
Qed.
(** ... but closer to 24 h it is written as 24 h. *)
Theorem C122_local_time_refuted n x s : (x < 24)%Q -> (inject_Z (24 * 10 ^ Z.of_nat (S n)) < x * inject_Z (10 ^ Z.of_nat (S n)) + (1 # 2))%Q -> s = fixed (S n) (Fin x) -> signed (S n) (24 * 10 ^ Z.of_nat (S n)) s.
Proof.
  intros X0 X1 ->. destruct (fixed_shows n (Fin x)) as (z & Sg & A). set (p := 10 ^ Z.of_nat (S n)) in *. assert (P : (0 < inject_Z p)%Q). { change 0%Q with (inject_Z 0). rewrite <- Zlt_Qlt. apply Z.pow_pos_nonneg; lia. }
  apply Qabs_Qle_condition in A. assert (XP : (x * inject_Z p < inject_Z (24 * p))%Q). { rewrite inject_Z_mult. apply Qmult_lt_compat_r; assumption. }
  replace (24 * p) with z; [exact Sg|]. assert (L1 : (inject_Z (24 * p) - 1 < inject_Z z)%Q) by lra. assert (L2 : (inject_Z z < inject_Z (24 * p) + 1)%Q) by lra.
  change 1%Q with (inject_Z 1) in L1, L2. rewrite <- inject_Z_plus, <- Zlt_Qlt in L2. unfold Qminus in L1. rewrite <- inject_Z_opp, <- inject_Z_plus, <- Zlt_Qlt in L1. lia.
Qed.
Example C122_case : fixed 2 (Fin (23996 # 1000)) = s2l "24.00" /\ fixed 2 (Fin (23994 # 1000)) = s2l "23.99" /\ fixed 6 (Fin (239999996 # 10000000)) = s2l "24.000000" /\ fixed 2 (Fin (-1 # 1000)) = s2l "-0.00".
Proof. repeat split; vm_compute; reflexivity. Qed.

(** ** C123 *)
(** Records of a file within a period, by index in increasing order. *)
Definition loaded_records (dtime : list Z) (s e : Z) (kept : list Z) : Prop :=
  StronglySorted Z.lt kept /\ forall k, In k kept <-> 0 <= k < zlen dtime /\ s <= tm dtime k <= e.
(** Loading only the period asked for gives every measurement the record it would have with all
    records of the file. *)
Theorem C123_period_loses_nothing dtime (good : Z -> Prop) dat max_sdiff kept first last : time_sorted dat -> 0 <= max_sdiff ->
  nth_error dat 0 = Some first -> nth_error dat (length dat - 1) = Some last ->
  loaded_records dtime (first - sec_us (max_sdiff + 1)) (last + sec_us (max_sdiff + 1)) kept ->
  let tol := max_sdiff * 1000000 in
  let all := candidate good (zlen dtime) (-1) in
  let some := candidate (fun j => exists k, nth_error kept (Z.to_nat j) = Some k /\ good k) (zlen kept) (-1) in
  forall i k, 0 <= i < zlen dat ->
    (within dtime dat tol k i /\ closest dtime dat all i k <->
     exists j, 0 <= j /\ nth_error kept (Z.to_nat j) = Some k /\ within (map (tm dtime) kept) dat tol j i /\ closest (map (tm dtime) kept) dat some i j).
Proof.
  intros SD MS N0 N1 [SK K] tol all some i k I.
  assert (F0 : forall x, 0 <= x < zlen dat -> first <= tm dat x <= last).
  { intros x R. pose proof (tm_nth _ _ _ N0) as T0. pose proof (tm_nth _ _ _ N1) as T1. unfold zlen in *. split; [rewrite <- T0; apply SD; unfold zlen; cbn; lia|rewrite <- T1; apply SD; unfold zlen; lia]. }
  assert (TK : forall j k, 0 <= j -> nth_error kept (Z.to_nat j) = Some k -> tm (map (tm dtime) kept) j = tm dtime k).
  { intros j k' J NJ. rewrite <- (Z2Nat.id j) at 1 by exact J. apply tm_nth. rewrite nth_error_map, NJ. reflexivity. }
  assert (OR : forall j j' x y, 0 <= j -> 0 <= j' -> nth_error kept (Z.to_nat j) = Some x -> nth_error kept (Z.to_nat j') = Some y -> (j < j' <-> x < y)).
  { intros j j' x y J J' NX NY. split; intros L; [eapply (sorted_nth kept SK (Z.to_nat j) (Z.to_nat j')); [lia|exact NX|exact NY]|].
    destruct (Z.lt_trichotomy j j') as [L'|[L'|L']]; [exact L'|subst; rewrite NX in NY; injection NY as <-; lia|].
    assert (y < x) by (eapply (sorted_nth kept SK (Z.to_nat j') (Z.to_nat j)); [lia|exact NY|exact NX]). lia. }
  assert (AL : forall x, all x <-> 0 <= x < zlen dtime /\ good x).
  { intros x. unfold all, candidate. split; [intros [R [E|[_ G]]]; [lia|split; assumption]|intros [R G]; split; [exact R|right; split; [lia|exact G]]]. }
  assert (SO : forall x, some x <-> 0 <= x < zlen kept /\ exists y, nth_error kept (Z.to_nat x) = Some y /\ good y).
  { intros x. unfold some, candidate. split; [intros [R [E|[_ G]]]; [lia|split; assumption]|intros [R G]; split; [exact R|right; split; [lia|exact G]]]. }
  split.
  - intros [W [CA CL]]. pose proof (proj1 (AL k) CA) as [R GK]. specialize (F0 i I). unfold within, tol in W.
    assert (IK : In k kept) by (apply K; unfold sec_us; split; [exact R|lia]). apply In_nth_error in IK. destruct IK as [j NJ]. exists (Z.of_nat j). rewrite Nat2Z.id.
    assert (LJ : (j < length kept)%nat) by (apply nth_error_Some; congruence).
    assert (NJ' : nth_error kept (Z.to_nat (Z.of_nat j)) = Some k) by (rewrite Nat2Z.id; exact NJ).
    split; [lia|]. split; [exact NJ|]. split; [unfold within; rewrite (TK _ k) by (try lia; exact NJ'); exact W|]. split; [apply SO; unfold zlen; rewrite Nat2Z.id; split; [lia|exists k; split; assumption]|].
    intros j' C'. apply SO in C'. destruct C' as [R' (k' & NJ2 & G')]. rewrite (TK (Z.of_nat j) k ltac:(lia) NJ'), (TK j' k' ltac:(lia) NJ2).
    assert (A' : all k') by (apply AL; split; [apply nth_error_In in NJ2; apply K in NJ2; tauto|exact G']). destruct (CL k' A') as [C1 C2]. split; [exact C1|]. intros L. apply C2. apply (OR j' (Z.of_nat j)); try assumption; lia.
  - intros (j & J0 & NJ & W & [CS CL]). apply SO in CS. destruct CS as [RJ (k0 & NJ0 & GK)]. rewrite NJ in NJ0. injection NJ0 as <-. pose proof (nth_error_In _ _ NJ) as IK. apply K in IK. destruct IK as [RK _].
    unfold within in W. rewrite (TK j k J0 NJ) in W. split; [exact W|]. split; [apply AL; split; assumption|]. intros k' A'. apply AL in A'. destruct A' as [R' G'].
    destruct (in_dec Z.eq_dec k' kept) as [IK'|NK'].
    + apply In_nth_error in IK'. destruct IK' as [j' NJ']. assert (L' : (j' < length kept)%nat) by (apply nth_error_Some; congruence).
      assert (NJ2 : nth_error kept (Z.to_nat (Z.of_nat j')) = Some k') by (rewrite Nat2Z.id; exact NJ').
      destruct (CL (Z.of_nat j')) as [C1 C2]; [apply SO; unfold zlen; split; [lia|exists k'; split; assumption]|]. rewrite (TK j k J0 NJ), (TK (Z.of_nat j') k' ltac:(lia) NJ2) in C1, C2. split; [exact C1|]. intros L. apply C2. apply (OR (Z.of_nat j') j k' k); try assumption; lia.
    + assert (FAR : Z.abs (tm dtime k' - tm dat i) > tol). { specialize (F0 i I). assert (~ (first - sec_us (max_sdiff + 1) <= tm dtime k' <= last + sec_us (max_sdiff + 1))) by (intros C; apply NK'; apply K; split; assumption). unfold tol, sec_us in *. lia. }
      split; intros; lia.
Qed.

(** ** C124 *)
(** A station is written only when its local time and field are numbers and its latitude is on
    the side asked for... *)
Theorem C124_usable_partial nanfill h p fill : (forall x, nanfill x <> fill) -> usable_station nanfill h p -> (fill <> NaN) ->
  let s := snd p in
  Forall (fun x => finite x /\ x <> fill) [nanfill (st_mlt s); nanfill (st_bn s); nanfill (st_be s); nanfill (st_bz s)] /\ on_side h (st_mlat s).
Proof. intros NF (A & B & C & D & E) _. cbn zeta. split; [|exact E]. repeat (constructor; [split; [assumption|apply NF]|]). constructor. Qed.
(** ... but the value that stands for a missing latitude is on the northern side. *)
Theorem C124_missing_latitude_refuted nanfill p : st_mlat (snd p) = Fin 999999 ->
  finite (nanfill (st_mlt (snd p))) -> finite (nanfill (st_bn (snd p))) -> finite (nanfill (st_be (snd p))) -> finite (nanfill (st_bz (snd p))) -> usable_station nanfill 1 p.
Proof. intros E A B C D. unfold usable_station. cbv zeta. repeat (split; [assumption|]). rewrite E. exists 999999%Q. split; [reflexivity|]. left. split; [reflexivity|lra]. Qed.
(** One station with a missing latitude in a file of the southern hemisphere makes the call fail
    when the hemisphere is to be found from the data. *)
Theorem C124_hemisphere_refuted make max_sdiff ts lats x : In (Fin 999999) lats -> In x lats -> on_side (-1) x ->
  forall r, boundary_for make None (Fin 0) max_sdiff ts (Ok lats) = Ok r -> False.
Proof.
  intros I J O r. unfold boundary_for. destruct ts as [ts|]; [|discriminate]. cbn [bind]. destruct (getE ts 0); [|discriminate]. cbn [bind]. destruct (getE ts (-1)); [|discriminate]. cbn [bind].
  destruct (add_us _ _); [|discriminate]. cbn [bind]. destruct (add_us _ _); [|discriminate]. cbn [bind]. cbn [neqb]. change (Qeq_bool 0 0) with true. cbv iota. cbn [bind].
  rewrite (C112_both_refused lats (Fin 999999) x I J); [discriminate|reflexivity|]. destruct (on_on _ _ O) as [[E _]|[_ O']]; [lia|exact O'].
Qed.

(** ** C125 *)
Section Unusable.
Context (pf : str -> res num) (nanfill : num -> num) (secs : num -> res Z) (show : num -> str) (make : num -> Z -> Z -> res boundary) (conv : Z -> mrow -> mvec) (vconv : Z -> num -> num -> num -> num * num * num).
Notation smag := (supermag2ascii pf nanfill make conv).
Notation vort := (vort2ascii pf secs show make vconv).
Theorem C125_no_file isfile size lines out hemisphere given max_sdiff sa mn mx ks : isfile = false \/ size = 0 \/ 2000000000 < size \/ out = false ->
  smag isfile size lines out hemisphere given max_sdiff mn mx ks = Err IOError /\ vort isfile size lines out hemisphere given max_sdiff sa mn mx ks = Err IOError.
Proof.
  intros H. unfold supermag2ascii, vort2ascii. assert (T : test_file isfile size = false \/ out = false).
  { destruct H as [->|[->|[L| ->]]]; [left; reflexivity| | |right; reflexivity]; left; unfold test_file; destruct isfile; try reflexivity; cbn [negb]; apply Z.ltb_lt in L; rewrite L; reflexivity. }
  destruct T as [->| ->]; [split; reflexivity|]. destruct (test_file isfile size); split; reflexivity.
Qed.
(** A boundary without records: nothing is written. *)
Theorem C125_no_records size hs bs liness b bh hemisphere max_sdiff mn mx ks : 0 < size <= 2000000000 -> b_records b = 0 ->
  (header hs -> Forall2 (whole_block pf) bs liness -> smag true size (hs ++ concat liness) true hemisphere (Some (b, bh)) max_sdiff mn mx ks = Ok None).
Proof.
  intros N Z0 H F. unfold supermag2ascii. replace (test_file true size) with true by (symmetry; apply C66_size_gate; [lia|split; [reflexivity|exact N]]). cbn [negb].
  destruct (C62_every_line_loaded pf nanfill size hs bs liness N H F) as (t & L & _). rewrite L. cbn [bind snd boundary_for]. rewrite Z0. reflexivity.
Qed.
Theorem C125_vort_no_records sa size hs bs liness b bh hemisphere max_sdiff mn mx ks : 0 < size <= 2000000000 -> b_records b = 0 ->
  Forall vheader hs -> Forall2 (whole_vblock pf secs sa) bs liness -> entries_of bs <> [] -> vort true size (hs ++ concat liness) true hemisphere (Some (b, bh)) max_sdiff sa mn mx ks = Ok None.
Proof.
  intros N Z0 H F NE. unfold vort2ascii. replace (test_file true size) with true by (symmetry; apply C66_size_gate; [lia|split; [reflexivity|exact N]]). cbn [negb].
  destruct (C64_every_entry_loaded pf secs sa size hs bs liness N H F) as [_ LD]. destruct (LD NE) as (t & L & _). rewrite L. cbn [bind snd boundary_for]. rewrite Z0. reflexivity.
Qed.
(** A vorticity file without entries is a ValueError. *)
Theorem C125_vort_no_entries sa size hs bs liness hemisphere given max_sdiff mn mx ks : 0 < size <= 2000000000 ->
  Forall vheader hs -> Forall2 (whole_vblock pf secs sa) bs liness -> entries_of bs = [] -> vort true size (hs ++ concat liness) true hemisphere given max_sdiff sa mn mx ks = Err ValueError.
Proof.
  intros N H F NE. unfold vort2ascii. replace (test_file true size) with true by (symmetry; apply C66_size_gate; [lia|split; [reflexivity|exact N]]). cbn [negb].
  destruct (C64_every_entry_loaded pf secs sa size hs bs liness N H F) as [L _]. rewrite (L NE). reflexivity.
Qed.
(** A file without the rule that ends the header is found unusable by the loader, but that is
    not looked at: the missing columns are a KeyError. *)
Theorem C125_no_rule_refuted size lines hemisphere given max_sdiff mn mx ks : 0 < size <= 2000000000 -> Forall (fun l => contains rule l = false) lines ->
  (forall b bh, given = Some (b, bh) -> b_records b <> 0) -> smag true size lines true hemisphere given max_sdiff mn mx ks = Err KeyError.
Proof.
  intros N F G. unfold supermag2ascii, load_supermag. replace (test_file true size) with true by (symmetry; apply C66_size_gate; [lia|split; [reflexivity|exact N]]). cbn [negb].
  assert (K : forall h, Forall (fun l => contains rule l = false) h -> forall s, sm_hflag s = true -> exists s', smag_lines pf s h = Ok s' /\ sm_hflag s' = true).
  { induction 1 as [|l h' C F' IH]; intros s HS; cbn [smag_lines]; [exists s; split; [reflexivity|exact HS]|]. unfold smag_line at 1. rewrite HS, C. cbn [negb bind]. apply IH. reflexivity. }
  destruct (K lines F (@sm_start num) eq_refl) as (s' & E & HS). rewrite E. cbn [bind]. rewrite HS. cbn [bind snd]. unfold boundary_for. destruct given as [[b bh]|].
  - cbn [bind]. destruct (Z.eqb_spec (b_records b) 0) as [Z0|_]; [destruct (G b bh eq_refl Z0)|]. reflexivity.
  - reflexivity.
Qed.
(** A file with a header only is an IndexError unless the boundary is given. *)
Theorem C125_no_stations_refuted size hs hemisphere max_sdiff mn mx ks : 0 < size <= 2000000000 -> header hs -> smag true size hs true hemisphere None max_sdiff mn mx ks = Err IndexError.
Proof.
  intros N H. unfold supermag2ascii. replace (test_file true size) with true by (symmetry; apply C66_size_gate; [lia|split; [reflexivity|exact N]]). cbn [negb].
  destruct (C62_every_line_loaded pf nanfill size hs [] [] N H (Forall2_nil _)) as (t & L & _ & K). cbn [concat] in L. rewrite app_nil_r in L. rewrite L. cbn [bind snd].
  destruct (times_ok nanfill [] t K) as (ts & ET & F). rewrite ET. inversion F. reflexivity.
Qed.
End Unusable.

(** ** Cases *)
Definition d_num (s : str) : res num :=
  match lookup s [(s2l "1.5", Fin (3 # 2)); (s2l "65.5", Fin (131 # 2)); (s2l "-70.5", Fin (-141 # 2)); (s2l "999999", Fin 999999); (s2l "4.0", Fin 4); (s2l "90.0", Fin 90); (s2l "2.125", Fin (17 # 8)); (s2l "-3.0", Fin (-3))] with
  | Some v => Ok v | None => Err ValueError end.
Definition d_fill (x : num) : num := if neqb x (Fin 999999) then NaN else x.
Definition d_conv (r : Z) (m : mrow) : mvec := mkVec (Fin (5 # 2)) (Fin (7516 # 100)) (m_mlt m) (Fin (31 # 10)) (m_bn m) (m_be m) (Fin (inject_Z r)).
Definition d_st (id : string) (bn mlat : num) : station num := mkSt (s2l id) bn (Fin (17 # 8)) (Fin (-3)) (Fin (3 # 2)) mlat (Fin 4) (Fin 90).
Definition d_b1 : block num := mkBl 1 1 1 0 0 5 [(s2l "SML", -195)] [d_st "AAA" (Fin 4) (Fin (131 # 2)); d_st "BBB" (Fin 999999) (Fin (131 # 2)); d_st "CCC" (Fin 4) (Fin (-141 # 2))].
Definition d_b2 : block num := mkBl 1 1 1 0 3 50 [] [d_st "DDD" (Fin (-3)) (Fin 999999); d_st "AAA" (Fin (-3)) (Fin (131 # 2))].
Definition d_l1 : list str := map s2l ["1 1 1 0 0 5 3"; "SML -195"; "AAA 4.0 2.125 -3.0 1.5 65.5 4.0 90.0"; "BBB 999999 2.125 -3.0 1.5 65.5 4.0 90.0"; "CCC 4.0 2.125 -3.0 1.5 -70.5 4.0 90.0"].
Definition d_l2 : list str := map s2l ["1 1 1 0 3 50 2"; "DDD -3.0 2.125 -3.0 1.5 999999 4.0 90.0"; "AAA -3.0 2.125 -3.0 1.5 65.5 4.0 90.0"].
Definition d_U : list (block num * station num) := [(d_b1, d_st "AAA" (Fin 4) (Fin (131 # 2))); (d_b2, d_st "DDD" (Fin (-3)) (Fin 999999)); (d_b2, d_st "AAA" (Fin (-3)) (Fin (131 # 2)))].
Example C118_case : supermag2ascii d_num d_fill (fun _ _ _ => Err ValueError) d_conv true 300 (demo_head ++ concat [d_l1; d_l2]) true (Fin 1) (Some (ex_b (-1), Fin 1)) 60 None None [] =
  Ok (Some [smag_header;
    s2l "0001-01-01 00:00:05 1 AAA -195 999999 90.00 65.50 1.50 2.50 4.00 2.12 -3.00 75.16 1.50 3.10 4.00 2.12 0.00" ++ [newline];
    s2l "0001-01-01 00:03:50 2 DDD 999999 999999 90.00 999999.00 1.50 2.50 -3.00 2.12 -3.00 75.16 1.50 3.10 -3.00 2.12 4.00" ++ [newline];
    s2l "0001-01-01 00:03:50 2 AAA 999999 999999 90.00 65.50 1.50 2.50 -3.00 2.12 -3.00 75.16 1.50 3.10 -3.00 2.12 4.00" ++ [newline]]).
Proof. vm_compute. reflexivity. Qed.
Lemma d_blocks : Forall2 (whole_block d_num) [d_b1; d_b2] [d_l1; d_l2].
Proof.
  constructor; [|constructor; [|constructor]]; (split; [|discriminate]).
  - exists (s2l "1 1 1 0 0 5 3"), (map s2l ["SML -195"]), (skipn 2 d_l1). split; [reflexivity|]. split; [|split; [|split]].
    + line ["1"; "1"; "1"; "0"; "0"; "5"; "3"]. repeat (constructor; [apply intb_integer; reflexivity|]). constructor.
    + eexists. exists (ordinal 1 1 1). split; [apply calendar_day_spec; split; [cbn; lia|split; [cbn; lia|split; [split; vm_compute; discriminate|reflexivity]]]|]. cbn. repeat split; try lia.
    + constructor; [|constructor]. split; [cbn; tauto|]. exists (s2l "-195"). split; [apply intb_integer; reflexivity|exact (joinb (map s2l ["SML"; "-195"]) eq_refl)].
    + constructor; [|constructor; [|constructor; [|constructor]]].
      * line ["4.0"; "2.125"; "-3.0"; "1.5"; "65.5"; "4.0"; "90.0"]. repeat constructor.
      * line ["999999"; "2.125"; "-3.0"; "1.5"; "65.5"; "4.0"; "90.0"]. repeat constructor.
      * line ["4.0"; "2.125"; "-3.0"; "1.5"; "-70.5"; "4.0"; "90.0"]. repeat constructor.
  - exists (s2l "1 1 1 0 3 50 2"), [], (skipn 1 d_l2). split; [reflexivity|]. split; [|split; [|split]].
    + line ["1"; "1"; "1"; "0"; "3"; "50"; "2"]. repeat (constructor; [apply intb_integer; reflexivity|]). constructor.
    + eexists. exists (ordinal 1 1 1). split; [apply calendar_day_spec; split; [cbn; lia|split; [cbn; lia|split; [split; vm_compute; discriminate|reflexivity]]]|]. cbn. repeat split; try lia.
    + constructor.
    + constructor; [|constructor; [|constructor]].
      * line ["-3.0"; "2.125"; "-3.0"; "1.5"; "999999"; "4.0"; "90.0"]. repeat constructor.
      * line ["-3.0"; "2.125"; "-3.0"; "1.5"; "65.5"; "4.0"; "90.0"]. repeat constructor.
Qed.
Lemma d_instant b t : b = d_b1 /\ t = 5000000 \/ b = d_b2 /\ t = 230000000 -> instant b t.
Proof. intros [[-> ->]|[-> ->]]; exists 0; (split; [apply calendar_day_spec; repeat split; try lia; vm_compute; discriminate|]); cbn; repeat split; lia. Qed.
Ltac fin := eexists; reflexivity.
Lemma d_usable id bn q b : (0 < q)%Q -> neqb bn (Fin 999999) = false -> finite bn -> usable_station d_fill 1 (b, d_st id bn (Fin q)).
Proof. intros Q N F. unfold usable_station, d_fill. cbn [snd d_st st_mlt st_bn st_be st_bz st_mlat]. rewrite N. split; [fin|]. split; [exact F|]. split; [fin|]. split; [fin|]. exists q. split; [reflexivity|]. left. split; [reflexivity|exact Q]. Qed.
Lemma d_searchable ks : ks = [] -> searchable (ex_b (-1)) 60 ks.
Proof.
  intros ->. split; [apply ex_b_wf|]. split; [intros ? []|]. split; [|cbn; lia].
  intros i j I J. cbn in J. assert (II : i = 0 \/ i = 1 \/ i = 2 \/ i = 3) by lia. assert (JJ : j = 1 \/ j = 2 \/ j = 3 \/ j = 4) by lia.
  destruct II as [->|[->|[->| ->]]], JJ as [->|[->|[->| ->]]]; try lia; vm_compute; reflexivity.
Qed.
Example C118_hypotheses : smag_input d_num d_fill (fun _ _ _ => Err ValueError) 300 demo_head [d_b1; d_b2] [d_l1; d_l2] (Fin 1) (Some (ex_b (-1), Fin 1)) 60 [] 1 (ex_b (-1)) d_U [5000000; 230000000; 230000000] /\
  ~ apart (ex_b (-1)) [5000000; 230000000; 230000000] 60 None None [].
Proof.
  assert (SB := d_searchable [] eq_refl). split.
  - split; [lia|]. split; [exact demo_header|]. split; [exact d_blocks|]. split; [discriminate|]. split; [|split; [|split; [exact SB|split]]].
    + intros i j b b' t t' L NI NJ I I'. assert (B : forall k b, nth_error [d_b1; d_b2] k = Some b -> k = 0%nat /\ b = d_b1 \/ k = 1%nat /\ b = d_b2). { intros [|[|k]] c N; cbn in N; [injection N as <-; auto|injection N as <-; auto|destruct k; discriminate]. }
      destruct (B _ _ NI) as [[-> ->]|[-> ->]], (B _ _ NJ) as [[-> ->]|[-> ->]]; try lia;
        repeat match goal with H : instant d_b1 ?t |- _ => rewrite (instant_fun _ _ _ H (d_instant d_b1 5000000 (or_introl (conj eq_refl eq_refl)))) in *; clear H | H : instant d_b2 ?t |- _ => rewrite (instant_fun _ _ _ H (d_instant d_b2 230000000 (or_intror (conj eq_refl eq_refl)))) in *; clear H end; lia.
    + exists [5000000; 5000000; 5000000; 230000000; 230000000]. split; [repeat (constructor; [apply d_instant; auto|]); constructor|]. split; [left; reflexivity|]. split; [reflexivity|left; reflexivity].
    + apply sel_take; [apply d_usable; [reflexivity|reflexivity|fin]|]. apply sel_skip; [intros (_ & (q & E) & _); discriminate E|]. apply sel_skip; [intros (_ & _ & _ & _ & (q & E & [[_ L]|[A _]])); [|discriminate A]; injection E as <-; discriminate L|].
      apply sel_take; [apply d_usable; [reflexivity|reflexivity|fin]|]. apply sel_take; [apply d_usable; [reflexivity|reflexivity|fin]|]. apply sel_nil.
    + repeat (constructor; [apply d_instant; auto|]); constructor.
  - intros [NT D]. destruct SB as (W & C & SS & MS & _ & RI). assert (SD : time_sorted [5000000; 230000000; 230000000]). { intros i j I J. cbn in J. assert (II : i = 0 \/ i = 1 \/ i = 2) by lia. assert (JJ : j = 0 \/ j = 1 \/ j = 2) by lia. destruct II as [->|[->| ->]], JJ as [->|[->| ->]]; try lia; vm_compute; discriminate. }
    destruct (supermag_pairs_spec (ex_b (-1)) _ 60 None None [] W C SS SD MS RI NT) as [[_ E]|[ND _]]; [vm_compute in E; discriminate E|exact (ND D)].
Qed.
Definition e_num (s : str) : res num :=
  match lookup s [(s2l "66.75", Fin (267 # 4)); (s2l "-66.75", Fin (-267 # 4)); (s2l "0.05", Fin (1 # 20)); (s2l "0.001", Fin (1 # 1000)); (s2l "3.05", Fin (61 # 20))] with Some v => Ok v | None => Ok (Fin 1) end.
Definition e_secs (x : num) : res Z := match x with Fin q => Ok (Qfloor (q * 3600)) | _ => Err ValueError end.
Definition e_conv (r : Z) (lat mlt v : num) : num * num * num := (Fin (7516 # 100), mlt, v).
Definition e_en (lat : string) : vline :=
  mkEn (map s2l ["0"; "1"; "13"; "14"; "5532"; "0.001"; "3.05"]) (map s2l ["0"; "63"; "-134"; "63"; "-135"; "62"; "-134"; "62"; "-133"; "63"; "-133"])
    (map s2l ["1"; lat; "-83"; "66"; "-84"; "66"; "-82"; "66"; "-81"; "67"; "-83"]).
Definition e_b : vblock num := mkVb 1 1 1 (Fin (1 # 20)) [e_en "66.75"; e_en "-66.75"].
Definition e_lines : list str := map s2l
  ["0001 1 1 0.05"; "2"; "0 1 13 14 5532 0.001 3.05"; "0 63 -134 63 -135 62 -134 62 -133 63 -133"; "1 66.75 -83 66 -84 66 -82 66 -81 67 -83";
   "0 1 13 14 5532 0.001 3.05"; "0 63 -134 63 -135 62 -134 62 -133 63 -133"; "1 -66.75 -83 66 -84 66 -82 66 -81 67 -83"].
Definition e_run (sa : bool) (h : num) := vort2ascii e_num e_secs (fixed 3) (fun _ _ _ => Err ValueError) e_conv true 400 (s2l "# vorticity" :: e_lines) true h (Some (ex_b (-1), Fin 1)) 60 sa None None [].
Example C121_case : e_run false (Fin 0) = Ok (Some [s2l "#DATE TIME OCB_LAT OCB_MLT NORM_VORT" ++ [newline]; s2l "0001-01-01 00:03:00 75.16 3.050000 0.001000" ++ [newline]]).
Proof. vm_compute. reflexivity. Qed.
Example C120_case : exists head line, e_run true (Fin (-1)) = Ok (Some [head; line]) /\ length (words [] head) = 36%nat /\ length (words [] line) = 36%nat /\ firstn 6 (words [] head) = map s2l ["#DATE"; "TIME"; "YEAR"; "MONTH"; "DAY"; "UTH"] /\ firstn 6 (words [] line) = map s2l ["0001-01-01"; "00:03:00"; "1"; "1"; "1"; "0.050"].
Proof. eexists. eexists. split; [vm_compute; reflexivity|]. repeat split; vm_compute; reflexivity. Qed.
Lemma e_whole sa : whole_vblock e_num e_secs sa e_b e_lines.
Proof.
  exists (s2l "0001 1 1 0.05"), (s2l "2"), [firstn 3 (skipn 2 e_lines); skipn 5 e_lines]. split; [reflexivity|]. split; [|split; [|split]].
  - exists (s2l "0001"), (s2l "1"), (s2l "1"), (s2l "0.05"). split; [exact (joinb (map s2l ["0001"; "1"; "1"; "0.05"]) eq_refl)|]. split; [|split; [|split; [|reflexivity]]].
    + exists "0"%char, "0"%char, "0"%char, "1"%char, 0, 0, 0, 1. repeat split; try (cbn; lia).
    + split; [|cbn; lia]. apply (written_dval (s2l "1")); [discriminate|reflexivity].
    + split; [|cbn; lia]. apply (written_dval (s2l "1")); [discriminate|reflexivity].
  - eexists. exists 0, 180, (ordinal 9999 12 31). split; [apply calendar_day_spec; repeat split; vm_compute; discriminate|]. split; [vm_compute; reflexivity|]. split; [reflexivity|].
    split; [vm_compute; discriminate|]. split; [apply calendar_day_spec; repeat split; vm_compute; discriminate|]. vm_compute. reflexivity.
  - exists (s2l "2"). split; [exact (joinb [s2l "2"] eq_refl)|]. apply intb_integer. reflexivity.
  - assert (W : forall w, exists v, number e_num v w). { intros w. unfold number, e_num. destruct (lookup w _); eexists; reflexivity. }
    constructor; [|constructor; [|constructor]]; (split; [|split; [reflexivity|split; [reflexivity|split; [reflexivity|intros k w _ _; apply W]]]]).
    + eexists. eexists. eexists. split; [reflexivity|]. split; [exact (joinb (e1 (e_en "66.75")) eq_refl)|]. split; [exact (joinb (e2 (e_en "66.75")) eq_refl)|exact (joinb (e3 (e_en "66.75")) eq_refl)].
    + eexists. eexists. eexists. split; [reflexivity|]. split; [exact (joinb (e1 (e_en "-66.75")) eq_refl)|]. split; [exact (joinb (e2 (e_en "-66.75")) eq_refl)|exact (joinb (e3 (e_en "-66.75")) eq_refl)].
Qed.
Lemma e_instant : vinstant e_secs e_b 180000000.
Proof.
  exists 0, 180, (ordinal 9999 12 31). split; [apply calendar_day_spec; repeat split; vm_compute; discriminate|]. split; [vm_compute; reflexivity|]. split; [reflexivity|].
  split; [vm_compute; discriminate|]. split; [apply calendar_day_spec; repeat split; vm_compute; discriminate|]. vm_compute. reflexivity.
Qed.
Example C121_hypotheses sa : vort_input e_num e_secs (fixed 3) (fun _ _ _ => Err ValueError) sa 400 [s2l "# vorticity"] [e_b] [e_lines] (Fin 0) (Some (ex_b (-1), Fin 1)) 60 [] 1 (ex_b (-1)) [(e_b, e_en "66.75")] [180000000] /\
  ~ apart (ex_b (-1)) [180000000] 60 None None [].
Proof.
  assert (SB := d_searchable [] eq_refl). split.
  - split; [intros v; eapply shows_word; apply fixed_shows|]. split; [lia|]. split; [constructor; [exists [s2l "vorticity"]; exact (joinb (map s2l ["#"; "vorticity"]) eq_refl)|constructor]|].
    split; [constructor; [apply e_whole|constructor]|]. split; [discriminate|]. split; [|split; [|split; [exact SB|split]]].
    + intros i j b b' t t' L NI NJ I I'. assert (B : forall k b, nth_error [e_b] k = Some b -> b = e_b). { intros [|k] c N; cbn in N; [injection N as <-; reflexivity|destruct k; discriminate]. }
      rewrite (B _ _ NI) in I. rewrite (B _ _ NJ) in I'. rewrite (vinstant_fun _ _ _ _ I I'). lia.
    + exists [180000000; 180000000], [Fin (267 # 4); Fin (-267 # 4)]. split; [repeat (constructor; [exact e_instant|]); constructor|]. split; [|split; [left; reflexivity|split; [reflexivity|right; split; reflexivity]]].
      constructor; [|constructor; [|constructor]]; eexists; (split; [cbn; do 19 right; left; reflexivity|reflexivity]).
    + assert (IN : forall s w, In ("CENTRE_MLAT", w) (items (e_en s)) -> w = s2l s). { intros s w I. cbn in I. repeat (destruct I as [E|I]; [first [discriminate E|injection E as <-; reflexivity]|]). destruct I. }
      apply sel_take; [exists (Fin (267 # 4)); split; [eexists; split; [cbn; do 19 right; left; reflexivity|reflexivity]|left; split; reflexivity]|].
      apply sel_skip; [|apply sel_nil]. intros (lat & (w & I & Nw) & B). cbn [snd] in I. rewrite (IN _ _ I) in Nw. vm_compute in Nw. injection Nw as <-. destruct B as [[_ B]|[B _]]; discriminate B.
    + constructor; [exact e_instant|constructor].
  - intros [NT D]. destruct SB as (W & C & SS & MS & _ & RI). assert (SD : time_sorted [180000000]). { intros i j I J. cbn in J. assert (i = 0 /\ j = 0) as [-> ->] by lia. lia. }
    destruct (vort_pairs_spec (ex_b (-1)) _ 60 None None [] W C SS SD MS RI NT) as [[_ E]|[ND _]]; [vm_compute in E; discriminate E|exact (ND D)].
Qed.
Example C119_case : exists head a b c, supermag2ascii d_num d_fill (fun _ _ _ => Err ValueError) d_conv true 300 (demo_head ++ concat [d_l1; d_l2]) true (Fin 1) (Some (ex_b (-1), Fin 1)) 60 None None [] = Ok (Some [head; a; b; c]) /\
  nth_error (words [] a) 2 = Some (s2l "1") /\ nth_error (words [] b) 2 = Some (s2l "2") /\ nth_error (words [] c) 2 = Some (s2l "2") /\ same_instant b c.
Proof.
  eexists. eexists. eexists. eexists. split; [vm_compute; reflexivity|]. split; [vm_compute; reflexivity|]. split; [vm_compute; reflexivity|]. split; [vm_compute; reflexivity|].
  eexists. eexists. eexists. eexists. split.
  - match goal with |- spaced _ ?l => let ws := eval vm_compute in (words [] l) in match ws with ?a :: ?b :: ?r => assert (S : spaced (a :: b :: r) (text_line (a :: b :: r))) by (apply text_line_spaced; [discriminate|repeat (constructor; [apply wordb_word; reflexivity|]); constructor]) end end. exact S.
  - match goal with |- spaced _ ?l => let ws := eval vm_compute in (words [] l) in match ws with ?a :: ?b :: ?r => assert (S : spaced (a :: b :: r) (text_line (a :: b :: r))) by (apply text_line_spaced; [discriminate|repeat (constructor; [apply wordb_word; reflexivity|]); constructor]) end end. exact S.
Qed.
Example C123_case : loaded_records [0; 60000000; 120000000; 180000000; 240000000] (100000000 - sec_us 21) (130000000 + sec_us 21) [2].
Proof.
  split; [repeat constructor|]. intros k. cbn [In]. split.
  - intros [<-|[]]. vm_compute. intuition discriminate.
  - intros [R H]. cbn in R. assert (K : k = 0 \/ k = 1 \/ k = 2 \/ k = 3 \/ k = 4) by lia. destruct K as [->|[->|[->|[->| ->]]]]; vm_compute in H; try tauto; destruct H as [A B]; first [destruct (A eq_refl)|destruct (B eq_refl)].
Qed.
Example C124_case : detect_hemisphere (Fin 0) [Fin (-70); Fin 999999] = Err ValueError /\ usable_station d_fill 1 (d_b2, d_st "DDD" (Fin (-3)) (Fin 999999)) /\ d_fill (Fin 999999) = NaN.
Proof. split; [vm_compute; reflexivity|]. split; [apply d_usable; [reflexivity|reflexivity|fin]|reflexivity]. Qed.
Example C125_case : supermag2ascii d_num d_fill (fun _ _ _ => Err ValueError) d_conv true 300 [s2l "SuperMAG"] true (Fin 1) (Some (ex_b (-1), Fin 1)) 60 None None [] = Err KeyError /\
  supermag2ascii d_num d_fill (fun _ _ _ => Err ValueError) d_conv true 300 demo_head true (Fin 1) (Some (ex_b (-1), Fin 1)) 60 None None [] = Ok (Some [smag_header]) /\
  supermag2ascii d_num d_fill (fun _ _ _ => Err ValueError) d_conv true 300 demo_head true (Fin 1) None 60 None None [] = Err IndexError.
Proof. repeat split; vm_compute; reflexivity. Qed.

Print Assumptions C118_supermag_lines_partial.
Print Assumptions C118_supermag_apart_refuted.
Print Assumptions C119_number_of_stations.
Print Assumptions C120_supermag_columns.
Print Assumptions C120_vort_columns.
Print Assumptions C121_vort_lines_partial.
Print Assumptions C121_vort_apart_refuted.
Print Assumptions C121_other_hemisphere.
Print Assumptions C122_local_time_partial.
Print Assumptions C122_local_time_refuted.
Print Assumptions C123_period_loses_nothing.
Print Assumptions C124_usable_partial.
Print Assumptions C124_missing_latitude_refuted.
Print Assumptions C124_hemisphere_refuted.
Print Assumptions C125_no_file.
Print Assumptions C125_no_records.
Print Assumptions C125_vort_no_records.
Print Assumptions C125_vort_no_entries.
Print Assumptions C125_no_rule_refuted.
Print Assumptions C125_no_stations_refuted.
