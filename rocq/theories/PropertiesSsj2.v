(** C166-C167: DMSP crossings relative to their own boundary, and fetching and formatting DMSP
    files in one step. *)
From Coq Require Import String Ascii Reals Rgeom Qreals ZArith QArith List Bool Lia Lra.
From Verif Require Import PyBase PyString TimeModel TimeSpec CycleModel RangeModel CoordModel CoordSpec CoordProofs CoordProofs2 PropertiesCoord
  FilesModel FilesSpec FilesProofs TextSpec OutputModel OutputSpec DmspModel PropertiesDmsp PropertiesDmsp2
  LoadModel LoadSpec PropertiesOutput3 SsjModel SsjSpec SsjProofs2 FetchModel PropertiesSsj.
Import ListNotations.
Open Scope string_scope.
Open Scope list_scope.
Open Scope Z_scope.

(** ** C166 *)
(** Record [k] of the loaded file as a boundary circle; DMSP boundaries have no correction. *)
Definition circle_of {F K} (d : LoadModel.loaded F K) (k : nat) (rc : rec) : Prop :=
  exists r, attr d k "r" (VCell (CFlt (Fin r))) /\ attr d k "r_cent" (VReal (Some (rcent rc))) /\ attr d k "phi_cent" (VReal (Some (phic rc))) /\
    rr rc = Q2R r /\ forall m, rfun rc (Some m) = Some 0%R.
Lemma attr_fun {F K} (d : LoadModel.loaded F K) k name v v' : attr d k name v -> attr d k name v' -> v = v'.
Proof. intros (s & A & B) (s' & A' & B'). rewrite A in A'. injection A' as <-. congruence. Qed.
Lemma near_reference b rc lat mlt eps : config_ok (hemi b) (blat b) -> CoordSpec.selected b rc -> in_hemisphere (hemi b) lat -> (forall m, rfun rc (Some m) = Some 0%R) -> (0 < rr rc)%R ->
  (Rabs (dist (point (90 - Rabs lat) mlt) (centre rc) - rr rc) <= eps)%R ->
  exists olat omlt corr after, normal_coord b (sc (Some lat)) (sc (Some mlt)) = Ok (out true [Some olat], out true [Some omlt], corr, after) /\
    (Rabs (olat - blat b) <= eps * (90 - Rabs (blat b)) / rr rc)%R.
Proof.
  intros C S H F R D. destruct (config_abs _ _ C) as [C1 [C2 C3]]. destruct C as [Hh Hb].
  destruct (normal_coord_sc b (Some lat) (Some mlt)) as [l [m [c' [E K]]]]. rewrite (proj2 (current_selected b rc) S) in K. rewrite (inside_right _ _ Hh H) in K. destruct K as [K1 K2]. rewrite F in K2. subst c'.
  destruct (normal_pt_spec (hemi b) (blat b) rc lat mlt 0 (F mlt) ltac:(lra)) as [m0 [E0 _]]. cbv zeta in E0. rewrite E0 in K1. injection K1 as <- <-.
  eexists. eexists. eexists. eexists. split; [exact E|].
  assert (HL : (90 - Rabs lat = colat (hemi b) lat)%R) by (unfold colat, in_hemisphere in *; destruct Hh as [W|W]; rewrite W in *; [rewrite Rabs_pos_eq; lra|rewrite Rabs_left; lra]).
  rewrite HL in D. set (A := dist (point (colat (hemi b) lat) mlt) (centre rc)) in *. rewrite Rplus_0_r in *. rewrite C1 in *. set (q := colat (hemi b) (blat b)) in *.
  assert (KP : (0 < q / rr rc)%R) by (apply Rdiv_lt_0_compat; lra). rewrite (Rabs_pos_eq (q / rr rc)) by lra.
  assert (EB : (blat b = IZR (hemi b) * (90 - rr rc * (q / rr rc)))%R). { replace (rr rc * (q / rr rc))%R with q by (field; lra). unfold q, colat. destruct Hh as [W|W]; rewrite W; lra. }
  replace (IZR (hemi b) * (90 - A * (q / rr rc)) - blat b)%R with (- IZR (hemi b) * ((A - rr rc) * (q / rr rc)))%R by (rewrite EB at 1; ring).
  rewrite Rabs_mult. replace (Rabs (- IZR (hemi b))) with 1%R by (rewrite Rabs_Ropp; destruct Hh as [W|W]; rewrite W; [rewrite Rabs_pos_eq; lra|rewrite Rabs_left; lra]).
  rewrite Rmult_1_l, Rabs_mult, (Rabs_pos_eq (q / rr rc)) by lra. unfold Rdiv at 2. rewrite Rmult_assoc. fold (q / rr rc)%R. apply Rmult_le_compat_r; [lra|exact D].
Qed.
Theorem C166_crossings_at_reference_partial :
  (* missing: hemispheres with one pass, C165_single_pass_refuted *)
  forall F K pf pf2 aacgm files ps bad h b stime etime (rf : given (corr F)) (kw : given K) noargs,
    all_files pf files ps bad -> files <> [] -> all_dated ps -> reads pf2 -> reads_whole pf2 ->
    (rf = GNone \/ exists f, rf = GOne f) -> (kw = GNone \/ exists k, kw = GOne k) ->
    exists es kept, format_ssj pf aacgm files = Ok (es, bad) /\ kept_of (fun q => s_hemi (snd q) = h) ps kept /\
    (length kept <> 1%nat ->
     exists d mids times idx,
       load_text pf2 1 dmsp_cols "%Y-%m-%d %H:%M:%S" stime etime (Some "dmsp-ssj") rf kw noargs (file_of h b es) = Ok (Some d) /\
       Forall2 (fun q m => middle (snd (fst q)) (snd q) b m) kept mids /\ Forall2 whole_second mids times /\ LoadSpec.selected stime etime times idx /\
       l_records d = Z.of_nat (length idx) /\
       forall k i sat day p m, nth_error idx k = Some i -> nth_error kept i = Some (sat, day, p) -> nth_error mids i = Some m ->
         forall lat1 mlt1 lat2 mlt2, aacgm (x_lat (s_first p b)) (x_lon (s_first p b)) m = (Some lat1, Some mlt1) -> aacgm (x_lat (s_second p b)) (x_lon (s_second p b)) m = (Some lat2, Some mlt2) ->
         (* the record holds a circle, unless the crossings are the same place *)
         (exists rc, circle_of d k rc /\ (0.001 < dist (point (90 - Rabs lat1) mlt1) (point (90 - Rabs lat2) mlt2) -> 0 < rr rc)%R) /\
         forall bd rc, hemi bd = h -> config_ok h (blat bd) -> CoordSpec.selected bd rc -> circle_of d k rc -> (0 < rr rc)%R ->
         forall lat mlt, (lat, mlt) = (lat1, mlt1) \/ (lat, mlt) = (lat2, mlt2) -> in_hemisphere h lat ->
         exists olat omlt corr after, normal_coord bd (sc (Some lat)) (sc (Some mlt)) = Ok (out true [Some olat], out true [Some omlt], corr, after) /\
           (Rabs (olat - blat bd) <= 0.00125 * (90 - Rabs (blat bd)) / rr rc)%R).
Proof.
  intros F K pf pf2 aacgm files ps bad h b stime etime rf kw noargs AF NE AD RD RW RF KW.
  destruct (C165_loaded_back_partial F K pf pf2 aacgm files ps bad h b stime etime rf kw noargs AF NE AD RD RW RF KW) as (es & kept & E & KO & H). exists es, kept. split; [exact E|]. split; [exact KO|]. intros N1.
  destruct (H N1) as (d & mids & times & idx & LD & M & W & SEL & LR & _ & _ & REC). exists d, mids, times, idx. repeat (split; [assumption|]).
  intros k i sat day p m KI EK EM lat1 mlt1 lat2 mlt2 A1 A2.
  destruct (REC k i sat day p m KI EK EM) as (_ & _ & (vr & RV & RN) & _ & _ & _ & _ & CIR). cbv zeta in CIR. unfold place_of, place in CIR, RN. rewrite A1, A2 in CIR, RN. cbn [fst snd] in CIR, RN.
  destruct (CIR _ _ eq_refl eq_refl) as (r' & rc' & pc' & D1 & D2 & D3 & D4). split.
  { exists (mkRec (Q2R r') rc' pc' (fun _ => Some 0%R)). split; [exists r'; repeat (split; [assumption|]); split; [reflexivity|intros; reflexivity]|]. cbn [rr].
    cbn [half_apart near3] in RN. destruct RN as (q & EV & NQ). subst vr. pose proof (attr_fun _ _ _ _ _ RV D1) as X. injection X as ->. intros AP. unfold Rabs at 1 in NQ. destruct (Rcase_abs _) in NQ; lra. }
  intros bd rc HB CF SL (r & C1 & C2 & C3 & C4 & C5) RP lat mlt X IH. subst h.
  pose proof (attr_fun _ _ _ _ _ C1 D1) as X1. injection X1 as <-. pose proof (attr_fun _ _ _ _ _ C2 D2) as X2. injection X2 as <-. pose proof (attr_fun _ _ _ _ _ C3 D3) as X3. injection X3 as <-.
  specialize (D4 (rfun rc)). cbv zeta in D4. unfold centre in D4. cbn [rcent phic] in D4. destruct D4 as [DA DB].
  apply near_reference; try assumption. rewrite C4. unfold centre. destruct X as [X|X]; injection X as -> ->; assumption.
Qed.
Print Assumptions C166_crossings_at_reference_partial.
(** Both passes are seen at a colatitude of 20 degrees, at dawn and dusk. *)
Example C166_case : exists files ps kept, all_files read_num files ps [] /\ files <> [] /\ all_dated ps /\ kept_of (fun q => s_hemi (snd q) = 1) ps kept /\ length kept = 2%nat /\
  reads read_float /\ reads_whole read_float /\ in_hemisphere 1 70 /\ config_ok 1 74 /\ (0.001 < dist (point (90 - Rabs 70) 6) (point (90 - Rabs 70) 18))%R /\
  forall rc, CoordSpec.selected (mkBnd 1 74 [rc] 0) rc.
Proof.
  destruct C165_case as (files & ps & kept & A & B & C & D & E & _). exists files, ps, kept. destruct C165_reads as [R1 R2]. repeat (split; [assumption|]). unfold in_hemisphere, config_ok, in_hemisphere. split; [lra|]. split; [split; [left; reflexivity|lra]|]. split.
  - unfold dist, point. cbn [fst snd]. rewrite (Rabs_pos_eq 70) by lra.
    replace (6 * PI / 12)%R with (PI / 2)%R by field. replace (18 * PI / 12)%R with (3 * (PI / 2))%R by field. rewrite cos_PI2, sin_PI2, cos_3PI2, sin_3PI2.
    match goal with |- (_ < sqrt ?x)%R => replace x with (40 * 40)%R by ring end. rewrite sqrt_square; lra.
  - intros rc. split; cbn; [lia|reflexivity].
Qed.

(** ** C167 *)
Lemma remove_all_spec names : forall fs, NoDup names -> Forall (fun n => In n fs) names ->
  exists fs', remove_all names fs = (fs', Ok tt) /\ forall x, In x fs' <-> In x fs /\ ~ In x names.
Proof.
  induction names as [|n t IH]; intros fs N F; cbn [remove_all].
  - exists fs. split; [reflexivity|]. intros x. cbn. tauto.
  - inversion N as [|? ? NI ND]; subst. inversion F as [|? ? I F']; subst. rewrite (proj2 (member_spec n fs) I).
    destruct (IH (remove n fs) ND) as (fs' & E & X).
    + rewrite Forall_forall in *. intros x J. apply member_remove. split; [exact (F' x J)|]. intros ->. contradiction.
    + exists fs'. split; [exact E|]. intros x. rewrite X, member_remove. cbn [In]. intuition congruence.
Qed.
Definition bound_ext (b : bnd) (e : str) : Prop := (b = PO /\ e = s2l "ocb") \/ (b = EQ /\ e = s2l "eab").
Theorem C167_fetch_format_partial :
  (* missing: calls in which formatting raises, C167_left_behind_refuted; directories with -f, C105_directory_refuted *)
  forall pf aacgm fuel w dir dir_ok dl zip content now stime etime rm w1 names ps bad files t1 d1 v1 mid tn dn vn,
    (* the files asked for (C103) were downloaded *)
    fetch fuel w dir_ok dl zip now stime etime None rm = (w1, Ok names) -> NoDup names -> Forall (fun n => In n (w_files w1)) names ->
    (* they are files of passes *)
    all_files pf (map (fun n => (dir ++ s2l "/" ++ n, content n)) names) ps bad -> all_dated ps ->
    ~ has_f dir -> names = map (fun '(t, d, v) => s2l "dmsp-f" ++ t) files -> files = (t1, d1, v1) :: mid -> last files (t1, d1, v1) = (tn, dn, vn) ->
    Forall (fun '(t, d, v) => pass_file t d v) files ->
    exists w' outs, fetch_format pf aacgm fuel w dir dir_ok dl zip content now stime etime rm = (w', outs, Ok (map fst outs)) /\
      (forall x, In x (w_files w') <-> In x (w_files w1) /\ (rm = true -> ~ In x names)) /\ w_stdout w' = w_stdout w1 /\
      length outs = 4%nat /\
      forall h hw b e, hemi_word h hw -> bound_ext b e ->
        exists kept lines, kept_of (fun q => s_hemi (snd q) = h) ps kept /\
          In (dir ++ s2l "/dmsp-ssj_" ++ hw ++ s2l "_" ++ d1 ++ s2l "_" ++ dn ++ s2l "_" ++ vn ++ s2l "." ++ e,
              (s2l "#sc date time r x y fom x_1 y_1 x_2 y_2" ++ [newl]) :: lines) outs /\
          Forall2 (fun q l => exists ws, spaced ws l /\ pass_words aacgm b q ws) kept lines.
Proof.
  intros pf aacgm fuel w dir dir_ok dl zip content now stime etime rm w1 names ps bad files t1 d1 v1 mid tn dn vn FE ND IN AF AD NF EN EF LF PF.
  assert (NE : map (fun n => (dir ++ s2l "/" ++ n, content n)) names <> []) by (rewrite EN, EF; discriminate).
  destruct (C164_passes_written_partial pf aacgm _ ps bad AF NE AD) as (es & E & FO).
  assert (EM : map fst (map (fun n => (in_dir dir n, content n)) names) = map (fun '(t, d, v) => dir ++ s2l "/dmsp-f" ++ t) files).
  { rewrite map_map, EN, map_map. apply map_ext. intros [[t d] v]. reflexivity. }
  assert (ON : forall h hw e, hemi_word h hw -> e = s2l "ocb" \/ e = s2l "eab" ->
    out_name (map fst (map (fun n => (in_dir dir n, content n)) names)) hw (s2l "." ++ e) = Ok (dir ++ s2l "/dmsp-ssj_" ++ hw ++ s2l "_" ++ d1 ++ s2l "_" ++ dn ++ s2l "_" ++ vn ++ s2l "." ++ e)).
  { intros h hw e HW BE. destruct (C105_output_names_partial dir files t1 d1 v1 mid tn dn vn h hw e now NF HW BE EF LF PF) as (name & ? & ? & O & -> & _). rewrite EM. exact O. }
  assert (FN : exists outs, format_named pf aacgm (map (fun n => (in_dir dir n, content n)) names) = Ok outs /\ length outs = 4%nat /\
    forall h hw b e, hemi_word h hw -> bound_ext b e -> In (dir ++ s2l "/dmsp-ssj_" ++ hw ++ s2l "_" ++ d1 ++ s2l "_" ++ dn ++ s2l "_" ++ vn ++ s2l "." ++ e, file_of h b es) outs).
  { unfold format_named, kinds. cbn [OutputModel.mapE fst snd].
    change (suffix_of 1) with (s2l "north"). change (suffix_of (-1)) with (s2l "south"). change (ext_of PO) with (s2l "." ++ s2l "ocb"). change (ext_of EQ) with (s2l "." ++ s2l "eab").
    rewrite (ON 1 (s2l "north") (s2l "ocb")), (ON 1 (s2l "north") (s2l "eab")), (ON (-1) (s2l "south") (s2l "ocb")), (ON (-1) (s2l "south") (s2l "eab")) by (first [left; split; reflexivity|right; split; reflexivity|left; reflexivity|right; reflexivity]).
    cbn [bind]. change (format_ssj pf aacgm (map (fun n : str => (in_dir dir n, content n)) names) = Ok (es, bad)) in E. rewrite E. cbn [bind combine map fst snd]. eexists. split; [reflexivity|]. split; [reflexivity|].
    intros h hw b e [[-> ->]|[-> ->]] [[-> ->]|[-> ->]]; [left|right; left|right; right; left|right; right; right; left]; reflexivity. }
  destruct FN as (outs & FN & L4 & OUT). unfold fetch_format. rewrite FE. destruct names as [|n0 ns]; [exfalso; apply NE; reflexivity|]. rewrite FN.
  assert (W : exists w', (if rm then match remove_all (n0 :: ns) (w_files w1) with (fs, Ok _) => (mkWorld (w_stdout w1) fs, outs, Ok (map fst outs)) | (fs, Err e) => (mkWorld (w_stdout w1) fs, outs, Err e) end
    else (w1, outs, Ok (map fst outs))) = (w', outs, Ok (map fst outs)) /\ (forall x, In x (w_files w') <-> In x (w_files w1) /\ (rm = true -> ~ In x (n0 :: ns))) /\ w_stdout w' = w_stdout w1).
  { destruct rm.
    - destruct (remove_all_spec (n0 :: ns) (w_files w1) ND IN) as (fs & R & X). rewrite R. eexists. split; [reflexivity|]. split; [|reflexivity]. intros x. cbn [w_files]. rewrite X. intuition.
    - exists w1. split; [reflexivity|]. split; [|reflexivity]. intros x. intuition discriminate. }
  destruct W as (w' & W1 & W2 & W3). exists w', outs. split; [exact W1|]. split; [exact W2|]. split; [exact W3|]. split; [exact L4|].
  intros h hw b e HW BE. destruct (FO h b) as (kept & lines & K & FL & F2). exists kept, lines. split; [exact K|]. split; [|exact F2]. rewrite <- FL. exact (OUT h hw b e HW BE).
Qed.
Theorem C167_nothing_asked : forall pf aacgm fuel w dir dir_ok dl zip content now stime etime rm w1,
  fetch fuel w dir_ok dl zip now stime etime None rm = (w1, Ok []) -> fetch_format pf aacgm fuel w dir dir_ok dl zip content now stime etime rm = (w1, [], Err ValueError).
Proof. intros. unfold fetch_format. rewrite H. reflexivity. Qed.
Theorem C167_download_fails : forall pf aacgm fuel w dir dir_ok dl zip content now stime etime rm w1 e,
  fetch fuel w dir_ok dl zip now stime etime None rm = (w1, Err e) -> fetch_format pf aacgm fuel w dir dir_ok dl zip content now stime etime rm = (w1, [], Err e).
Proof. intros. unfold fetch_format. rewrite H. reflexivity. Qed.
(** A downloaded file that cannot be formatted stays, though temporary files are not wanted. *)
Definition f17_member : str := s2l "dmsp-f17_ssj_precipitating-electrons-ions_20100101_v1.1.2_boundaries.csv".
Theorem C167_left_behind_refuted : exists fuel dl zip content, forall aacgm now,
  fetch_format read_num aacgm fuel (mkWorld Console []) (s2l "/data") true dl zip content now None None true = (mkWorld Console [f17_member], [], Err ValueError).
Proof.
  exists 3%nat, (DDone "Checksum is correct Link: https://z/a.zip" [s2l "a.zip"; s2l "md5sums.txt"]), (fun _ => [f17_member]), (fun _ => [s2l "a,b" ++ [newl]; s2l "1.0,2.0" ++ [newl]; s2l "1.0,2.0" ++ [newl]]).
  intros aacgm now. vm_compute. reflexivity.
Qed.
Definition f16_member : str := s2l "dmsp-f16_ssj_precipitating-electrons-ions_20101231_v1.1.2_boundaries.csv".
Example C167_case : exists w1 ps files, let dl := DDone "Checksum is correct Link: https://z/a.zip" [s2l "a.zip"; s2l "md5sums.txt"] in
  fetch 3 (mkWorld Console [s2l "b.txt"]) true dl (fun _ => [f16_member]) 0 None None None true = (w1, Ok [f16_member]) /\ NoDup [f16_member] /\ Forall (fun n => In n (w_files w1)) [f16_member] /\
  all_files read_num (map (fun n => (s2l "/data" ++ s2l "/" ++ n, f16_lines)) [f16_member]) ps [] /\ all_dated ps /\ length ps = 2%nat /\ ~ has_f (s2l "/data") /\
  [f16_member] = map (fun '(t, d, v) => s2l "dmsp-f" ++ t) files /\ Forall (fun '(t, d, v) => pass_file t d v) files.
Proof.
  eexists. eexists. exists [(s2l "16_ssj_precipitating-electrons-ions_20101231_v1.1.2_boundaries.csv", s2l "20101231", s2l "v1.1.2")]. cbv zeta.
  split; [vm_compute; reflexivity|]. split; [constructor; [intros []|constructor]|]. split; [constructor; [right; left; reflexivity|constructor]|].
  split; [exact f16_files|]. split; [exact f16_dated|]. split; [reflexivity|]. split; [intros X; apply contains_spec in X; vm_compute in X; discriminate X|]. split; [reflexivity|]. constructor; [exact C105_case|constructor].
Qed.
Print Assumptions C167_fetch_format_partial.
Print Assumptions C167_nothing_asked.
Print Assumptions C167_download_fails.
Print Assumptions C167_left_behind_refuted.
