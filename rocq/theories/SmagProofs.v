(** Reading SuperMAG files block by block. *)
From Coq Require Import String Ascii ZArith List Bool Lia.
From Verif Require Import PyBase PyString TimeModel TimeSpec TimeProofs FilesModel FilesProofs TextSpec TextProofs SmagModel SmagSpec LoadProofs.
Import ListNotations.
Open Scope string_scope.
Open Scope list_scope.
Open Scope Z_scope.

Section P.
Context {V : Type} (pf : str -> res V).
Notation lines_from := (smag_lines pf).

(** What a station adds to the columns: time, indices in force, values. *)
Record row := mkRow { r_date : list Z; r_time : Z; r_nst : Z; r_ind : list (str * Z); r_st : station V }.
Definition idx (k : string) (l : list (str * Z)) : Z := match lookup (s2l k) l with Some z => z | None => 0 end.
Definition dpart (i : nat) (r : row) : cell V := CZ (nth i (r_date r) 0).
Definition tab (rows : list row) : table V :=
  [(s2l "YEAR", map (dpart 0) rows); (s2l "MONTH", map (dpart 1) rows); (s2l "DAY", map (dpart 2) rows); (s2l "HOUR", map (dpart 3) rows);
   (s2l "MIN", map (dpart 4) rows); (s2l "SEC", map (dpart 5) rows); (s2l "DATETIME", map (fun r => CT (r_time r)) rows);
   (s2l "NST", map (fun r => CZ (r_nst r)) rows); (s2l "SML", map (fun r => CZ (idx "SML" (r_ind r))) rows);
   (s2l "SMU", map (fun r => CZ (idx "SMU" (r_ind r))) rows); (s2l "STID", map (fun r => CS (st_id (r_st r))) rows);
   (s2l "BN", map (fun r => CF (st_bn (r_st r))) rows); (s2l "BE", map (fun r => CF (st_be (r_st r))) rows);
   (s2l "BZ", map (fun r => CF (st_bz (r_st r))) rows); (s2l "MLT", map (fun r => CF (st_mlt (r_st r))) rows);
   (s2l "MLAT", map (fun r => CF (st_mlat (r_st r))) rows); (s2l "DEC", map (fun r => CF (st_dec (r_st r))) rows);
   (s2l "SZA", map (fun r => CF (st_sza (r_st r))) rows)].

(** The indices keep the two keys. *)
Definition two (l : list (str * Z)) : Prop := exists a b, l = [(s2l "SMU", a); (s2l "SML", b)].
Lemma two_set k z l : two l -> k = s2l "SML" \/ k = s2l "SMU" -> two (setkey k z l).
Proof. intros (a & b & ->) [->| ->]; cbn; [exists a, z|exists z, b]; reflexivity. Qed.

Lemma station_step s ws rows st y mo d h mi sc :
  sm_date s = [y; mo; d; h; mi; sc] -> two (sm_ind s) -> sm_out s = tab rows ->
  Forall2 (number pf) [st_bn st; st_be st; st_bz st; st_mlt st; st_mlat st; st_dec st; st_sza st] ws ->
  let out := tab (rows ++ [mkRow (sm_date s) (sm_time s) (sm_snum s) (sm_ind s) st]) in
  station_line pf s (st_id st :: ws) =
    if sm_n s + 1 =? sm_snum s then Ok (mkSm (sm_head s) (sm_hflag s) (-1) (sm_date s) (sm_time s) (sm_snum s) no_index out)
    else Ok (mkSm (sm_head s) (sm_hflag s) (sm_n s + 1) (sm_date s) (sm_time s) (sm_snum s) (sm_ind s) out).
Proof.
  intros D (ia & ib & I) O F. cbv zeta. unfold station_line. rewrite D, I, O.
  assert (W : exists t1 t2 t3 t4 t5 t6 t7, ws = [t1; t2; t3; t4; t5; t6; t7] /\ pf t1 = Ok (st_bn st) /\ pf t2 = Ok (st_be st) /\
    pf t3 = Ok (st_bz st) /\ pf t4 = Ok (st_mlt st) /\ pf t5 = Ok (st_mlat st) /\ pf t6 = Ok (st_dec st) /\ pf t7 = Ok (st_sza st)).
  { repeat match goal with H : Forall2 _ (_ :: _) _ |- _ => inversion_clear H | H : Forall2 _ [] _ |- _ => inversion_clear H end.
    do 7 eexists. split; [reflexivity|]. repeat split; assumption. }
  destruct W as (t1 & t2 & t3 & t4 & t5 & t6 & t7 & -> & P1 & P2 & P3 & P4 & P5 & P6 & P7).
  assert (G : forall k v, pf k = Ok v -> forall l i, getE l i = Ok k -> fltE pf l i = Ok (CF v)).
  { intros k v P l i E. unfold fltE. rewrite E. cbn [bind]. rewrite P. reflexivity. }
  rewrite (G _ _ P1 (st_id st :: [t1; t2; t3; t4; t5; t6; t7]) 1 eq_refl), (G _ _ P2 (st_id st :: [t1; t2; t3; t4; t5; t6; t7]) 2 eq_refl), (G _ _ P3 (st_id st :: [t1; t2; t3; t4; t5; t6; t7]) 3 eq_refl), (G _ _ P4 (st_id st :: [t1; t2; t3; t4; t5; t6; t7]) 4 eq_refl), (G _ _ P5 (st_id st :: [t1; t2; t3; t4; t5; t6; t7]) 5 eq_refl),
    (G _ _ P6 (st_id st :: [t1; t2; t3; t4; t5; t6; t7]) 6 eq_refl), (G _ _ P7 (st_id st :: [t1; t2; t3; t4; t5; t6; t7]) 7 eq_refl).
  change (getE (st_id st :: [t1; t2; t3; t4; t5; t6; t7]) 0) with (@Ok str (st_id st)).
  cbn [map fst snd].
  cbn. unfold tab. rewrite !map_app. cbn [map]. unfold dpart, idx. cbn. reflexivity.
Qed.

(** The state between blocks, and inside one after its date line. *)
Definition between_blocks (hd : list str) (rows : list row) (s : sm V) : Prop :=
  sm_head s = hd /\ sm_hflag s = false /\ sm_n s = -1 /\ sm_ind s = no_index /\ sm_out s = tab rows.
Definition inside (hd : list str) (rows : list row) (date : list Z) (t snum n : Z) (ind : list (str * Z)) (s : sm V) : Prop :=
  sm_head s = hd /\ sm_hflag s = false /\ sm_n s = n /\ sm_date s = date /\ sm_time s = t /\ sm_snum s = snum /\ sm_ind s = ind /\ sm_out s = tab rows.

Lemma lines_app s l1 l2 : lines_from s (l1 ++ l2) = (s' <- lines_from s l1 ;; lines_from s' l2).
Proof. revert s. induction l1 as [|a l IH]; intros s; cbn [app smag_lines bind]; [reflexivity|]. destruct (smag_line pf s a); cbn [bind]; [apply IH|reflexivity]. Qed.
Lemma intsE_spec zs ws : Forall2 integer zs ws -> intsE ws = Ok zs.
Proof. induction 1 as [|z w zs ws I F IH]; [reflexivity|]. cbn [intsE]. rewrite (py_int_integer _ _ I), IH. reflexivity. Qed.
Definition date_of (b : block V) : list Z := [b_year b; b_mon b; b_day b; b_hour b; b_min b; b_sec b].
Lemma getE_nat (l : list Z) (i : nat) : getE l (Z.of_nat i) = if (i <? length l)%nat then Ok (nth i l 0) else Err IndexError.
Proof.
  unfold getE, py_get. destruct (Nat.ltb_spec i (length l)) as [L|L].
  - replace ((0 <=? Z.of_nat i) && (Z.of_nat i <? Z.of_nat (length l))) with true by (symmetry; apply andb_true_iff; rewrite Z.leb_le, Z.ltb_lt; lia).
    rewrite Nat2Z.id. rewrite (nth_error_nth' l 0 L). reflexivity.
  - replace ((0 <=? Z.of_nat i) && (Z.of_nat i <? Z.of_nat (length l))) with false by (symmetry; apply andb_false_iff; rewrite Z.ltb_ge; lia).
    replace ((- Z.of_nat (length l) <=? Z.of_nat i) && (Z.of_nat i <? 0)) with false by (symmetry; apply andb_false_iff; rewrite Z.ltb_ge; lia). reflexivity.
Qed.
Lemma getE_last (l : list Z) a : getE (a :: l) (-1) = Ok (last (a :: l) 0).
Proof.
  destruct (exists_last (l := a :: l) ltac:(discriminate)) as (l' & z & ->). rewrite last_last. unfold getE, py_get. rewrite app_length. cbn [length].
  cbn [Z.leb Z.compare andb]. replace ((- Z.of_nat (length l' + 1) <=? -1) && (-1 <? 0)) with true by (symmetry; apply andb_true_iff; rewrite Z.leb_le, Z.ltb_lt; lia).
  replace (Z.to_nat (Z.of_nat (length l' + 1) + -1)) with (length l') by lia. rewrite nth_error_app2, Nat.sub_diag by lia. reflexivity.
Qed.
Lemma date_step hd rows s b count dl t : between_blocks hd rows s -> written_date b count dl -> instant b t ->
  exists s', smag_line pf s dl = Ok s' /\ inside hd rows (date_of b) t count 0 no_index s'.
Proof.
  intros (H1 & H2 & H3 & H4 & H5) (ws & SP & F) (n & C & Y & HH & MM & SS & ->). unfold smag_line. rewrite H2, (words_spaced _ _ SP), H3.
  change (-1 <? 0) with true. cbv iota. unfold date_line. rewrite (intsE_spec _ _ F). cbn [bind].
  apply calendar_day_spec in C. destruct C as (_ & CM & CD & ->).
  assert (E : mk_datetime (b_year b) (b_mon b) (b_day b) (b_hour b) (b_min b) (b_sec b) 0 =
    Ok (day_us (ordinal (b_year b) (b_mon b) (b_day b)) + sec_us ((b_hour b * 60 + b_min b) * 60 + b_sec b))).
  { rewrite mk_datetime_ok by lia. f_equal. unfold day_us, sec_us, us_day. lia. }
  rewrite (getE_nat _ 0), (getE_nat _ 1), (getE_nat _ 2), (getE_nat _ 3), (getE_nat _ 4), (getE_nat _ 5), getE_last. cbn [length Nat.ltb Nat.leb nth last bind].
  rewrite E. cbn [bind]. eexists. split; [reflexivity|]. repeat split; assumption.
Qed.
Lemma index_step hd rows date t snum n ind s p line : inside hd rows date t snum n ind s -> 0 <= n -> two ind -> written_index p line ->
  exists s', smag_line pf s line = Ok s' /\ inside hd rows date t snum n (setkey (fst p) (snd p) ind) s' /\ two (setkey (fst p) (snd p) ind).
Proof.
  intros (H1 & H2 & H3 & H4 & H5 & H6 & H7 & H8) N T (K & z & I & SP). unfold smag_line. rewrite H2, (words_spaced _ _ SP), H3.
  destruct (Z.ltb_spec n 0); [lia|]. rewrite (py_int_integer _ _ I). cbn [bind]. eexists. split; [reflexivity|].
  split; [|apply two_set; assumption]. unfold inside. cbn. rewrite H7. repeat split; assumption.
Qed.
Lemma index_steps hd rows date t snum n ps lines : Forall2 written_index ps lines -> forall ind s, inside hd rows date t snum n ind s -> 0 <= n -> two ind ->
  let ind' := fold_left (fun d p => setkey (fst p) (snd p) d) ps ind in
  exists s', lines_from s lines = Ok s' /\ inside hd rows date t snum n ind' s' /\ two ind'.
Proof.
  induction 1 as [|p l ps lines P F IH]; intros ind s I N T; cbn [smag_lines fold_left]; [eauto|].
  destruct (index_step _ _ _ _ _ _ _ _ _ _ I N T P) as (s1 & -> & I1 & T1). cbn [bind]. exact (IH _ _ I1 N T1).
Qed.
Lemma stations_step hd date t snum ind : length date = 6%nat -> two ind -> forall sts lines, Forall2 (written_station pf) sts lines ->
  forall rows n s, inside hd rows date t snum n ind s -> 0 <= n -> n + zlen sts <= snum ->
  let rows' := rows ++ map (mkRow date t snum ind) sts in
  exists s', lines_from s lines = Ok s' /\
    (if n + zlen sts =? snum then sts = [] \/ between_blocks hd rows' s' else inside hd rows' date t snum (n + zlen sts) ind s').
Proof.
  intros LD TW sts lines F. induction F as [|st l sts lines P F IH]; intros rows n s I N LE; cbn [smag_lines map].
  - exists s. split; [reflexivity|]. rewrite app_nil_r, Z.add_0_r. destruct (n =? snum); [left; reflexivity|exact I].
  - destruct P as (ws & SP & FW). pose proof I as (H1 & H2 & H3 & H4 & H5 & H6 & H7 & H8).
    assert (LW : length ws = 7%nat) by (apply F2_length in FW; symmetry; exact FW).
    assert (E : smag_line pf s l = station_line pf s (st_id st :: ws)).
    { unfold smag_line. rewrite H2, (words_spaced _ _ SP), H3. destruct (Z.ltb_spec n 0); [lia|].
      destruct ws as [|a [|b ws]]; [discriminate LW|discriminate LW|reflexivity]. }
    destruct date as [|y [|mo [|d [|h [|mi [|sc [|]]]]]]]; try discriminate LD. clear LD.
    rewrite E, (station_step s ws rows st _ _ _ _ _ _ H4) by (rewrite ?H7; assumption). rewrite H1, H2, H3, H4, H5, H6, H7.
    unfold zlen in *. cbn [length] in *. rewrite Nat2Z.inj_succ in *.
    destruct (Z.eqb_spec (n + 1) snum) as [Q|Q].
    + assert (sts = []) as -> by (destruct sts; [reflexivity|cbn [length] in LE; lia]). assert (lines = []) as -> by (inversion F; reflexivity). cbn [bind smag_lines].
      eexists. split; [reflexivity|]. cbn [length]. replace (n + Z.succ (Z.of_nat 0)) with (n + 1) by lia. rewrite Q, Z.eqb_refl. right. repeat split.
    + cbn [bind]. edestruct (IH (rows ++ [mkRow [y; mo; d; h; mi; sc] t snum ind st]) (n + 1)) as (s' & -> & R); [repeat split|lia|lia|].
      eexists. split; [reflexivity|]. rewrite <- app_assoc in R. cbn [app] in R. replace (n + 1 + Z.of_nat (length sts)) with (n + Z.succ (Z.of_nat (length sts))) in R by lia.
      destruct (n + Z.succ (Z.of_nat (length sts)) =? snum) eqn:QQ; [|exact R]. right. destruct R as [->|R]; [|exact R].
      apply Z.eqb_eq in QQ. cbn [length] in QQ. lia.
Qed.
Definition ind_of (b : block V) : list (str * Z) := fold_left (fun d p => setkey (fst p) (snd p) d) (b_index b) no_index.
Definition rows_of (count : Z) (t : Z) (b : block V) : list row := map (mkRow (date_of b) t count (ind_of b)) (b_st b).
Lemma two_none : two no_index. Proof. exists fill_val, fill_val. reflexivity. Qed.
(** A block with its announced number of stations. *)
Lemma block_step hd rows s b lines t : between_blocks hd rows s -> written_block pf b (zlen (b_st b)) lines -> b_st b <> [] -> instant b t ->
  exists s', lines_from s lines = Ok s' /\ between_blocks hd (rows ++ rows_of (zlen (b_st b)) t b) s'.
Proof.
  intros B (dl & ils & sls & -> & D & _ & FI & FS) NE IN. cbn [smag_lines].
  destruct (date_step _ _ _ _ _ _ _ B D IN) as (s1 & -> & I1). cbn [bind]. rewrite lines_app.
  destruct (index_steps _ _ _ _ _ _ _ _ FI _ _ I1 ltac:(lia) two_none) as (s2 & -> & I2 & T2). cbn [bind].
  destruct (stations_step hd (date_of b) _ _ _ eq_refl T2 _ _ FS _ _ _ I2 ltac:(lia) ltac:(lia)) as (s3 & -> & R).
  exists s3. split; [reflexivity|]. cbn [Z.add] in R. rewrite Z.eqb_refl in R. destruct R as [R|R]; [contradiction|exact R].
Qed.
(** A block cut short: fewer stations than announced. *)
Lemma cut_step hd rows s b count lines t : between_blocks hd rows s -> written_block pf b count lines -> zlen (b_st b) < count -> instant b t ->
  exists s', lines_from s lines = Ok s' /\ inside hd (rows ++ rows_of count t b) (date_of b) t count (zlen (b_st b)) (ind_of b) s'.
Proof.
  intros B (dl & ils & sls & -> & D & _ & FI & FS) NE IN. cbn [smag_lines].
  destruct (date_step _ _ _ _ _ _ _ B D IN) as (s1 & -> & I1). cbn [bind]. rewrite lines_app.
  destruct (index_steps _ _ _ _ _ _ _ _ FI _ _ I1 ltac:(lia) two_none) as (s2 & -> & I2 & T2). cbn [bind].
  destruct (stations_step hd (date_of b) _ _ _ eq_refl T2 _ _ FS _ _ _ I2 ltac:(lia) ltac:(lia)) as (s3 & -> & R).
  exists s3. split; [reflexivity|]. cbn [Z.add] in R. destruct (Z.eqb_spec (zlen (b_st b)) count); [lia|]. exact R.
Qed.
(** A block announcing no stations leaves the loop waiting for stations. *)
Lemma empty_step hd rows s b lines t : between_blocks hd rows s -> written_block pf b 0 lines -> b_st b = [] -> instant b t ->
  exists s', lines_from s lines = Ok s' /\ inside hd rows (date_of b) t 0 0 (ind_of b) s'.
Proof.
  intros B (dl & ils & sls & -> & D & _ & FI & FS) NE IN. cbn [smag_lines].
  destruct (date_step _ _ _ _ _ _ _ B D IN) as (s1 & -> & I1). cbn [bind]. rewrite lines_app.
  destruct (index_steps _ _ _ _ _ _ _ _ FI _ _ I1 ltac:(lia) two_none) as (s2 & -> & I2 & T2). cbn [bind].
  rewrite NE in FS. inversion FS; subst. exists s2. split; [reflexivity|exact I2].
Qed.
Lemma header_step hs : header hs -> exists s, lines_from sm_start hs = Ok s /\ between_blocks hs [] s.
Proof.
  intros (h & r & -> & F & R).
  assert (G : forall h, Forall (fun l => contains rule l = false) h -> forall pre, lines_from (mkSm pre true (-1) [] 0 0 no_index (tab [])) h = Ok (mkSm (pre ++ h) true (-1) [] 0 0 no_index (tab []))).
  { induction 1 as [|l h' C F' IH]; intros pre; cbn [smag_lines]; [rewrite app_nil_r; reflexivity|].
    unfold smag_line at 1. cbn [sm_hflag sm_head sm_n sm_date sm_time sm_snum sm_ind sm_out]. rewrite C. cbn [negb bind]. rewrite IH, <- app_assoc. reflexivity. }
  rewrite lines_app. change (@sm_start V) with (mkSm [] true (-1) [] 0 0 no_index (tab [])). rewrite (G h F []). cbn [bind smag_lines app].
  unfold smag_line. cbn [sm_hflag sm_head sm_n sm_date sm_time sm_snum sm_ind sm_out]. rewrite R. cbn [negb bind].
  eexists. split; [reflexivity|]. repeat split.
Qed.
(** All blocks of a file. *)
Lemma blocks_step hd bs liness : Forall2 (whole_block pf) bs liness -> forall rows s, between_blocks hd rows s ->
  exists s' ts, lines_from s (concat liness) = Ok s' /\ Forall2 instant bs ts /\
    between_blocks hd (rows ++ concat (map (fun p => rows_of (zlen (b_st (fst p))) (snd p) (fst p)) (combine bs ts))) s'.
Proof.
  induction 1 as [|b l bs ls [W NE] F IH]; intros rows s B; cbn [concat map].
  - exists s, []. rewrite app_nil_r. split; [reflexivity|]. split; [constructor|exact B].
  - pose proof W as (dl & ils & sls & _ & _ & [t IN] & _ & _). destruct (block_step _ _ _ _ _ _ B W NE IN) as (s1 & E1 & B1).
    destruct (IH _ _ B1) as (s2 & ts & E2 & FT & B2). exists s2, (t :: ts). rewrite lines_app, E1. cbn [bind]. split; [exact E2|].
    split; [constructor; assumption|]. cbn [combine map concat fst snd]. rewrite <- app_assoc in B2. exact B2.
Qed.
End P.
