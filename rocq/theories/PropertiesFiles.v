(** C58-C60, C98, C99: choosing boundary files. *)
From Coq Require Import String Ascii ZArith List Bool Lia.
From Verif Require Import PyBase PyString TimeModel TimeSpec TimeProofs TimeProofs2 TimeProofs3 TimeProofs4 FilesModel FilesSpec FilesProofs.
Import ListNotations.
Open Scope string_scope.
Open Scope list_scope.
Open Scope Z_scope.

(** ** C58 *)
Lemma describes_info tomorrow bound name inst h s e i : length bound = 3%nat -> describes tomorrow bound name inst h s e ->
  file_info tomorrow name = Ok i -> i = mkInfo inst h (Some s) (Some e).
Proof. intros L D E. rewrite (file_info_spec _ _ _ _ _ _ _ L D) in E. congruence. Qed.
Lemma good_spec tomorrow bound listing st et h instrument files g : length bound = 3%nat -> tidy tomorrow bound listing ->
  get_boundary_files tomorrow bound listing = Ok files -> good_files st et h (wanted instrument) files = Ok g ->
  forall n i, In (n, i) g <-> exists inst s e, i = mkInfo inst h (Some s) (Some e) /\ fits tomorrow bound listing st et h instrument n inst s e.
Proof.
  intros L T F G n i. rewrite (good_in _ _ _ _ _ _ G), (files_in _ _ _ _ L F). split.
  - intros ((C & I) & H & W & P). destruct (T n C) as (inst & h' & s & e & D). pose proof (describes_info _ _ _ _ _ _ _ _ L D I) as ->.
    cbn in H, W. subst h'. exists inst, s, e. split; [reflexivity|]. split; [exact C|]. split; [exact D|].
    split; [apply wanted_spec; exact W|apply period_spec in P; exact P].
  - intros (inst & s & e & -> & C & D & A & P). split; [split; [exact C|exact (file_info_spec _ _ _ _ _ _ _ L D)]|].
    split; [reflexivity|]. split; [apply wanted_spec; exact A|apply period_spec; exact P].
Qed.

Theorem C58_default_file_partial :
  (* missing: directories with other files, and several files of one unknown instrument, C59 *)
  forall dir listing tomorrow stime etime hemisphere instrument bound r i,
    length bound = 3%nat -> tidy tomorrow bound listing ->
    get_default_file dir listing tomorrow stime etime hemisphere instrument bound = Ok (r, i) ->
    match r with
    | None =>
        i = instrument /\ forall name inst s e, ~ fits tomorrow bound listing stime etime hemisphere instrument name inst s e
    | Some path =>
        exists name inst s e, path = dir ++ s2l "/" ++ name /\
          fits tomorrow bound listing stime etime hemisphere instrument name inst s e /\ loaded_as inst i /\
          forall name' inst' s' e', fits tomorrow bound listing stime etime hemisphere instrument name' inst' s' e' -> ~ preferred inst' inst
    end.
Proof.
  intros dir listing tomorrow st et h instrument bound r i L T E. unfold get_default_file in E.
  destruct (get_boundary_files tomorrow bound listing) as [files|] eqn:F; [|discriminate]. cbn [bind] in E.
  destruct (good_files st et h (wanted instrument) files) as [g|] eqn:G; [|discriminate]. cbn [bind] in E.
  pose proof (good_spec _ _ _ _ _ _ _ _ _ L T F G) as S. destruct g as [|f g'].
  - injection E as <- <-. split; [reflexivity|]. intros name inst s e FT.
    destruct (proj2 (S name (mkInfo inst h (Some s) (Some e)))). eauto 8.
  - assert (K : exists n j, r = Some (join dir n) /\ i = long_name (fi_inst j) /\ In (n, j) (f :: g') /\
              forall f', In f' (f :: g') -> ~ preferred (fi_inst (snd f')) (fi_inst j)).
    { destruct g' as [|f2 g'].
      - destruct f as [n j]. injection E as <- <-. exists n, j. split; [reflexivity|]. split; [reflexivity|]. split; [left; reflexivity|].
        intros f' [<-|[]] (l1 & l2 & l3 & X). cbn [snd] in X. pose proof NoDup_order as ND. change known with order in X. rewrite X in ND.
        apply NoDup_remove_2 in ND. apply ND. apply in_or_app. right. apply in_or_app. right. left. reflexivity.
      - assert (E' : (d <- ranked (f :: f2 :: g') [] ;; match smallest d with None => Err ValueError | Some (_, (n, j)) => Ok (Some (join dir n), long_name (fi_inst j)) end) = Ok (r, i))
          by (destruct f; exact E). clear E. destruct (ranked (f :: f2 :: g') []) as [d|] eqn:R; [|discriminate]. cbn [bind] in E'.
        destruct (smallest d) as [[k [n j]]|] eqn:SM; [|discriminate]. injection E' as <- <-. exists n, j. split; [reflexivity|]. split; [reflexivity|].
        destruct (ranked_spec _ _ _ R) as (A & _ & C). apply smallest_spec in SM. destruct SM as [I M].
        destruct (A _ _ I) as [[]|[I2 IX]]. split; [exact I2|]. intros f' If P. destruct (C f' If) as (k' & IX' & Ik).
        cbn [snd] in IX. rewrite (preferred_rank _ _ _ _ IX' IX) in P. specialize (M k' Ik). cbn [fst] in M. lia. }
    destruct K as (n & j & -> & -> & I & P). destruct (proj1 (S n j) I) as (inst & s & e & -> & FT). exists n, inst, s, e.
    split; [reflexivity|]. split; [exact FT|]. split; [apply long_name_spec|]. intros n' inst' s' e' FT' PR.
    apply (P (n', mkInfo inst' h (Some s') (Some e'))); [|exact PR]. apply S. eauto 8.
Qed.
(** There is an answer whenever at most one file fits or all that fit are from known instruments. *)
Theorem C58_answers_partial :
  forall dir listing tomorrow stime etime hemisphere instrument bound,
    length bound = 3%nat -> tidy tomorrow bound listing ->
    (forall name inst s e, fits tomorrow bound listing stime etime hemisphere instrument name inst s e -> In inst known) ->
    exists r i, get_default_file dir listing tomorrow stime etime hemisphere instrument bound = Ok (r, i).
Proof.
  intros dir listing tomorrow st et h instrument bound L T K. unfold get_default_file. destruct (files_total _ _ _ L T) as [files F]. rewrite F. cbn [bind].
  assert (D : dated files).
  { intros n i I. apply (files_in _ _ _ _ L F) in I. destruct I as [C FI]. destruct (T n C) as (inst & h' & s & e & D).
    rewrite (describes_info _ _ _ _ _ _ _ _ L D FI). cbn. eauto. }
  destruct (good_total st et h (wanted instrument) files D) as [g G]. rewrite G. cbn [bind].
  pose proof (good_spec _ _ _ _ _ _ _ _ _ L T F G) as S. destruct g as [|[n i] [|f2 g]]; [eauto|eauto|].
  destruct (ranked_total ((n, i) :: f2 :: g) []) as [d R].
  { intros [m j] I. apply S in I. destruct I as (inst & s & e & -> & FT). exact (K _ _ _ _ FT). }
  rewrite R. cbn [bind]. destruct (smallest_total d (ranked_none _ _ _ _ R)) as [[k [m j]] ->]. eauto.
Qed.

Lemma plain_dec (p : str) : existsb (Ascii.eqb "_") p = false -> plain p.
Proof.
  intros H I. assert (X : existsb (Ascii.eqb "_") p = true) by (apply existsb_exists; exists "_"%char; split; [exact I|reflexivity]). congruence.
Qed.
Ltac plains := repeat (apply Forall_cons; [apply plain_dec; reflexivity|]); apply Forall_nil.
Ltac cand := split; [cbn; tauto|]; split; [intros X; apply contains_spec in X; discriminate X|]; split; [intros X; apply contains_spec in X; discriminate X|].
Lemma midnight_day y m d : 1 <= y <= 9999 -> 1 <= m <= 12 -> 1 <= d <= month_len y m -> midnight y m d (day y m d).
Proof. intros A B C. exists (ordinal y m d). split; [apply calendar_day_spec; auto|reflexivity]. Qed.
Ltac mid := apply midnight_day; cbn; lia.

(** A directory with an AMPERE and an IMAGE file for the north. *)
Definition two_files : list entry := [(s2l "README.md", true); (s2l "amp_north_radii.ocb", true); (s2l "image_north_circle.ocb", true); (s2l "old.ocb", false)].
Lemma amp_describes tm : describes tm "ocb" "amp_north_radii.ocb" "amp" 1 (day 2010 1 1) (day 2022 1 1).
Proof.
  exists (s2l "north"), [s2l "radii"], "."%char. split; [reflexivity|]. split; [plains|]. split; [left; auto|]. left. left.
  split; [reflexivity|]. split; mid.
Qed.
Lemma image_describes tm : describes tm "ocb" "image_north_circle.ocb" "image" 1 (day 2000 5 3) (day 2002 11 1).
Proof.
  exists (s2l "north"), [s2l "circle"], "."%char. split; [reflexivity|]. split; [plains|]. split; [left; auto|]. left. do 4 right. left.
  split; [reflexivity|]. split; mid.
Qed.
Lemma two_tidy tm : tidy tm "ocb" two_files.
Proof.
  intros name (I & P & R & _). cbn in I. destruct I as [I|[I|[I|[I|[]]]]]; injection I as <-.
  - exfalso. apply R. exists [], (s2l ".md"). reflexivity.
  - do 4 eexists. apply amp_describes.
  - do 4 eexists. apply image_describes.
  - discriminate.
Qed.
Example C58_case : tidy (day 2026 1 1) "ocb" two_files /\
  get_default_file "d" two_files (day 2026 1 1) None None 1 [] "ocb" = Ok (Some (s2l "d/image_north_circle.ocb"), s2l "image") /\
  get_default_file "d" two_files (day 2026 1 1) (Some (day 2011 1 1)) (Some (day 2011 1 2)) 1 [] "ocb" = Ok (Some (s2l "d/amp_north_radii.ocb"), s2l "ampere") /\
  get_default_file "d" two_files (day 2026 1 1) None None (-1) [] "ocb" = Ok (None, []).
Proof. split; [apply two_tidy|]. split; [vm_compute; reflexivity|]. split; vm_compute; reflexivity. Qed.
Print Assumptions C58_default_file_partial.
Print Assumptions C58_answers_partial.

(** ** C59 *)
(** Two files that fit, one of them of an unknown instrument: the documented naming convention
    leads to a ValueError. *)
Theorem C59_unknown_instrument_refuted :
  forall dir listing tomorrow stime etime hemisphere instrument bound n1 i1 s1 e1 n2 i2 s2 e2,
    length bound = 3%nat -> tidy tomorrow bound listing ->
    fits tomorrow bound listing stime etime hemisphere instrument n1 i1 s1 e1 ->
    fits tomorrow bound listing stime etime hemisphere instrument n2 i2 s2 e2 -> n1 <> n2 -> ~ In i1 known ->
    get_default_file dir listing tomorrow stime etime hemisphere instrument bound = Err ValueError.
Proof.
  intros dir listing tomorrow st et h instrument bound n1 i1 s1 e1 n2 i2 s2 e2 L T F1 F2 N U. unfold get_default_file.
  destruct (files_total _ _ _ L T) as [files F]. rewrite F. cbn [bind].
  assert (D : dated files).
  { intros n i I. apply (files_in _ _ _ _ L F) in I. destruct I as [C FI]. destruct (T n C) as (inst & h' & s & e & D).
    rewrite (describes_info _ _ _ _ _ _ _ _ L D FI). cbn. eauto. }
  destruct (good_total st et h (wanted instrument) files D) as [g G]. rewrite G. cbn [bind].
  pose proof (good_spec _ _ _ _ _ _ _ _ _ L T F G) as S.
  assert (I1 : In (n1, mkInfo i1 h (Some s1) (Some e1)) g) by (apply S; eauto 8).
  assert (I2 : In (n2, mkInfo i2 h (Some s2) (Some e2)) g) by (apply S; eauto 8).
  destruct g as [|[m j] [|f2 g]]; [destruct I1|exfalso; destruct I1 as [X|[]], I2 as [Y|[]]; congruence|].
  rewrite (ranked_err _ _ _ I1); [reflexivity|exact U].
Qed.
(** One file outside the convention and no request can be answered. *)
Theorem C59_stray_file_refuted :
  forall dir listing tomorrow stime etime hemisphere instrument bound name,
    length bound = 3%nat -> candidate bound listing name -> plain (drop_last 4 name) ->
    exists e, get_default_file dir listing tomorrow stime etime hemisphere instrument bound = Err e.
Proof.
  intros dir listing tomorrow st et h instrument bound name L C P. unfold get_default_file.
  destruct (get_boundary_files tomorrow bound listing) as [files|e] eqn:F; cbn [bind]; [exfalso|eauto].
  assert (FI : file_info tomorrow name = Err IndexError).
  { unfold file_info. assert (Q : plain (drop_last 4 (lowers name))).
    { unfold drop_last in *. rewrite lowers_length. unfold lowers. rewrite firstn_map. intros I. apply in_map_iff in I.
      destruct I as (c & E & I). apply P. assert (c = "_"%char) as <-; [|exact I]. clear - E. revert E. destruct c as [[] [] [] [] [] [] [] []]; vm_compute; congruence. }
    rewrite (split_plain _ Q). reflexivity. }
  clear - L C F FI. revert files F. induction listing as [|[m f] t IH]; intros files F; cbn [get_boundary_files] in F.
  - destruct C as [[] _].
  - apply (candidate_spec _ _ _ L) in C. destruct C as [[I|I] B].
    + injection I as -> ->. rewrite B in F. cbn [fst] in F. rewrite FI in F. discriminate.
    + assert (C : candidate bound t name) by (apply candidate_spec; auto). destruct (is_boundary bound (m, f)); [|exact (IH C _ F)].
      destruct (file_info tomorrow (fst (m, f))); [|discriminate]. cbn [bind] in F.
      destruct (get_boundary_files tomorrow bound t) as [r|]; [|discriminate]. exact (IH C r eq_refl).
Qed.
Lemma files_app tomorrow bound l1 l2 files : get_boundary_files tomorrow bound (l1 ++ l2) = Ok files ->
  exists f1 f2, get_boundary_files tomorrow bound l1 = Ok f1 /\ get_boundary_files tomorrow bound l2 = Ok f2 /\ files = f1 ++ f2.
Proof.
  revert files. induction l1 as [|e l1 IH]; intros files E; cbn [app get_boundary_files] in *; [eauto|].
  destruct (is_boundary bound e); [|exact (IH _ E)]. destruct (file_info tomorrow (fst e)) as [i|]; [|discriminate]. cbn [bind] in *.
  destruct (get_boundary_files tomorrow bound (l1 ++ l2)) as [r|]; [|discriminate]. cbn [bind] in E. injection E as <-.
  destruct (IH r eq_refl) as (f1 & f2 & -> & -> & ->). cbn [bind]. eauto.
Qed.
Lemma good_app st et h inst l1 l2 g : good_files st et h inst (l1 ++ l2) = Ok g ->
  exists g1 g2, good_files st et h inst l1 = Ok g1 /\ good_files st et h inst l2 = Ok g2 /\ g = g1 ++ g2.
Proof.
  revert g. induction l1 as [|[n i] l1 IH]; intros g E; cbn [app good_files] in *; [eauto|].
  destruct ((fi_hemi i =? h) && member (fi_inst i) inst); [|exact (IH _ E)]. destruct (time_ok st et i) as [b|]; [|discriminate]. cbn [bind] in *.
  destruct (good_files st et h inst (l1 ++ l2)) as [r|]; [|discriminate]. cbn [bind] in E. injection E as <-.
  destruct (IH r eq_refl) as (g1 & g2 & -> & -> & ->). cbn [bind]. destruct b; eauto.
Qed.
Definition rank (f : str * info) : res nat := index (fi_inst (snd f)) order.
Lemma put_new {A} k (v : A) d w : NoDup (map fst d) -> In (k, w) (put k v d) -> w = v.
Proof.
  induction d as [|[j x] d IH]; cbn; intros ND I; [destruct I as [I|[]]; congruence|]. apply NoDup_cons_iff in ND. destruct ND as [N ND].
  destruct (Nat.eqb_spec k j) as [->|NE].
  - destruct I as [I|I]; [congruence|]. exfalso. apply N. apply in_map_iff. exists (j, w). auto.
  - destruct I as [I|I]; [congruence|auto].
Qed.
Lemma put_nodup {A} k (v : A) d : NoDup (map fst d) -> NoDup (map fst (put k v d)).
Proof.
  induction d as [|[j x] d IH]; cbn; intros ND; [repeat constructor; intros []|]. apply NoDup_cons_iff in ND. destruct ND as [N ND].
  destruct (Nat.eqb_spec k j) as [->|NE]; cbn; constructor; auto. intros I. apply put_keys in I. destruct I; congruence.
Qed.
Lemma ranked_last files d d' : NoDup (map fst d) -> ranked files d = Ok d' -> forall k f, In (k, f) d' ->
  (In (k, f) d /\ forall g, In g files -> rank g <> Ok k) \/ exists l1 l2, files = l1 ++ f :: l2 /\ forall g, In g l2 -> rank g <> Ok k.
Proof.
  revert d. induction files as [|x t IH]; intros d ND E k f I; cbn [ranked] in E.
  - injection E as <-. left. split; [exact I|intros g []].
  - destruct (index (fi_inst (snd x)) order) as [n|] eqn:N; [|discriminate]. cbn [bind] in E.
    destruct (IH _ (put_nodup n x d ND) E k f I) as [[J A]|(l1 & l2 & -> & A)].
    + destruct (Nat.eq_dec k n) as [->|NE].
      * right. exists [], t. split; [rewrite (put_new _ _ _ _ ND J); reflexivity|exact A].
      * left. split; [apply put_in in J; destruct J as [J|J]; [congruence|exact J]|].
        intros g [<-|G]; [unfold rank; rewrite N; congruence|auto].
    + right. exists (x :: l1), l2. auto.
Qed.
(** Of several files of the chosen instrument the one listed last is taken, whatever the dates
    in the names. *)
Theorem C59_last_listed :
  forall dir l1 name l2 tomorrow stime etime hemisphere instrument bound i inst s e,
    length bound = 3%nat -> tidy tomorrow bound (l1 ++ (name, true) :: l2) -> NoDup (map fst (l1 ++ (name, true) :: l2)) ->
    get_default_file dir (l1 ++ (name, true) :: l2) tomorrow stime etime hemisphere instrument bound = Ok (Some (dir ++ s2l "/" ++ name), i) ->
    describes tomorrow bound name inst hemisphere s e ->
    forall name' s' e', fits tomorrow bound (l1 ++ (name, true) :: l2) stime etime hemisphere instrument name' inst s' e' -> ~ In (name', true) l2.
Proof.
  intros dir l1 name l2 tomorrow st et h instrument bound i inst s e L T ND E DS name' s' e' FT AFT.
  unfold get_default_file in E. destruct (get_boundary_files tomorrow bound _) as [files|] eqn:F; [|discriminate]. cbn [bind] in E.
  destruct (good_files st et h (wanted instrument) files) as [g|] eqn:G; [|discriminate]. cbn [bind] in E.
  pose proof (good_spec _ _ _ _ _ _ _ _ _ L T F G) as S.
  replace (l1 ++ (name, true) :: l2) with ((l1 ++ [(name, true)]) ++ l2) in F by (rewrite <- app_assoc; reflexivity).
  destruct (files_app _ _ _ _ _ F) as (f1 & f2 & F1 & F2 & ->). destruct (good_app _ _ _ _ _ _ _ G) as (g1 & g2 & G1 & G2 & EG).
  assert (I' : In (name', mkInfo inst h (Some s') (Some e')) g2).
  { apply (good_in _ _ _ _ _ _ G2). destruct FT as (C & D & A & P). split.
    - apply (files_in _ _ _ _ L F2). split; [|exact (file_info_spec _ _ _ _ _ _ _ L D)]. destruct C as [_ C]. split; [exact AFT|exact C].
    - split; [reflexivity|]. split; [apply wanted_spec; exact A|apply period_spec; exact P]. }
  assert (NI : forall j, ~ In (name, j) g2).
  { intros j J. apply (good_in _ _ _ _ _ _ G2) in J. destruct J as [J _]. apply (files_in _ _ _ _ L F2) in J. destruct J as [[J _] _].
    rewrite map_app in ND. cbn [map fst] in ND. apply NoDup_remove_2 in ND. apply ND. apply in_or_app. right. apply in_map_iff. exists (name, true). auto. }
  assert (JI : forall n, join dir n = dir ++ s2l "/" ++ name -> n = name).
  { intros n X. unfold join in X. apply app_inv_head in X. apply app_inv_head in X. exact X. }
  assert (I0 : g1 <> []).
  { intros ->. cbn in EG. subst g. assert (exists j, In (name, j) g2) as [j J]; [|exact (NI j J)].
    destruct g2 as [|[n1 j1] [|f' g2]]; [destruct I'| |].
    - injection E as E _. apply JI in E. subst. eexists. left. reflexivity.
    - destruct (ranked ((n1, j1) :: f' :: g2) []) as [d|] eqn:R; [|discriminate]. cbn [bind] in E.
      destruct (smallest d) as [[k [n j]]|] eqn:SM; [|discriminate]. injection E as E _. apply JI in E. subst n. apply smallest_spec in SM.
      destruct (ranked_spec _ _ _ R) as (A & _). destruct (A _ _ (proj1 SM)) as [[]|[B _]]. eauto. }
  destruct g as [|[n1 j1] [|f' g]]; [destruct g1; [contradiction I0; reflexivity|discriminate EG]|destruct g1 as [|? [|? ?]]; [contradiction I0; reflexivity|destruct g2; [destruct I'|discriminate]|discriminate]|].
  destruct (ranked ((n1, j1) :: f' :: g) []) as [d|] eqn:R; [|discriminate]. cbn [bind] in E.
  destruct (smallest d) as [[k [n j]]|] eqn:SM; [|discriminate]. injection E as E _. apply JI in E. subst n. apply smallest_spec in SM. destruct SM as [SM _].
  destruct (ranked_last _ [] _ (NoDup_nil _) R _ _ SM) as [[[] _]|(a & b & EQ & A)].
  destruct (ranked_spec _ _ _ R) as (B & _). destruct (B _ _ SM) as [[]|[IG IX]].
  assert (SUF : exists m, b = m ++ g2).
  { rewrite EQ in EG. clear - EG NI. specialize (NI j). revert a EG. induction g1 as [|x g1 IH]; intros a EG.
    - cbn in EG. exfalso. apply NI. rewrite <- EG. apply in_or_app. right. left. reflexivity.
    - destruct a as [|y a]; cbn in EG; injection EG as _ EG; [eauto|]. exact (IH a EG). }
  destruct SUF as [m ->]. apply (A _ (in_or_app _ _ _ (or_intror I'))). unfold rank. cbn [snd fi_inst]. rewrite <- IX. f_equal.
  assert (FI : In (name, j) (f1 ++ f2)) by (apply (good_in _ _ _ _ _ _ G); exact IG).
  apply (files_in _ _ _ _ L F) in FI. rewrite (describes_info _ _ _ _ _ _ _ _ L DS (proj2 FI)). reflexivity.
Qed.
(** DMSP files: the answer for 1 January 2010 is the file named after 2015. *)
Definition dmsp_files : list entry :=
  [(s2l "dmsp-ssj_north_20100101_20100102_v1.ocb", true); (s2l "dmsp-ssj_north_20150101_20150102_v1.ocb", true)].
Lemma dmsp_describes tm a b : plain (s2l a) -> plain (s2l b) -> forall name, lowers name = joined [s2l "dmsp-ssj"; s2l "north"; s2l a; s2l b; s2l "v1"] ++ "."%char :: s2l "ocb" ->
  describes tm "ocb" name "dmsp-ssj" 1 (day 2010 1 1) tm.
Proof.
  intros A B name E. exists (s2l "north"), [s2l a; s2l b; s2l "v1"], "."%char. split; [exact E|]. split; [apply Forall_cons; [apply plain_dec; reflexivity|]; apply Forall_cons; [apply plain_dec; reflexivity|];
    apply Forall_cons; [exact A|]; apply Forall_cons; [exact B|]; plains|].
  split; [left; auto|]. left. do 5 right. split; [reflexivity|]. split; [mid|reflexivity].
Qed.
Theorem C59_dates_ignored_refuted :
  exists listing, tidy (day 2026 1 1) "ocb" listing /\ In (s2l "dmsp-ssj_north_20100101_20100102_v1.ocb", true) listing /\
    get_default_file "d" listing (day 2026 1 1) (Some (day 2010 1 1)) (Some (day 2010 1 2)) 1 "dmsp-ssj" "ocb" =
      Ok (Some (s2l "d/dmsp-ssj_north_20150101_20150102_v1.ocb"), s2l "dmsp-ssj").
Proof.
  exists dmsp_files. split.
  - intros name (I & _). destruct I as [I|[I|[]]]; injection I as <-; do 4 eexists.
    + apply (dmsp_describes _ "20100101" "20100102"); try (apply plain_dec; reflexivity). reflexivity.
    + apply (dmsp_describes _ "20150101" "20150102"); try (apply plain_dec; reflexivity). reflexivity.
  - split; [left; reflexivity|]. vm_compute. reflexivity.
Qed.
Example C59_case :
  candidate "ocb" [(s2l "notes.ocb", true)] (s2l "notes.ocb") /\ plain (drop_last 4 (s2l "notes.ocb")) /\
  get_default_file "d" [(s2l "ground_north_20100101_20100102.ocb", true); (s2l "ground_north_20100102_20100103.ocb", true)] (day 2026 1 1) None None 1 "ground" "ocb" = Err ValueError.
Proof.
  split; [cand; exists (s2l "notes."), (s2l "ocb"); auto|]. split; [apply plain_dec; reflexivity|]. vm_compute. reflexivity.
Qed.
Print Assumptions C59_unknown_instrument_refuted.
Print Assumptions C59_stray_file_refuted.
Print Assumptions C59_last_listed.
Print Assumptions C59_dates_ignored_refuted.

(** ** C98 *)
(** A file of the requested instrument is returned if the times are not both given. *)
Theorem C98_instrument_overrides_partial :
  (* missing: both times given, C98_times_still_used_refuted *)
  forall dir listing tomorrow stime etime hemisphere instrument bound r i name inst s e,
    length bound = 3%nat -> tidy tomorrow bound listing -> stime = None \/ etime = None ->
    candidate bound listing name -> describes tomorrow bound name inst hemisphere s e -> answers instrument inst ->
    get_default_file dir listing tomorrow stime etime hemisphere instrument bound = Ok (r, i) -> r <> None.
Proof.
  intros dir listing tomorrow st et h instrument bound r i name inst s e L T N C D A E ->.
  pose proof (C58_default_file_partial _ _ _ _ _ _ _ _ _ _ L T E) as [_ X]. apply (X name inst s e).
  split; [exact C|]. split; [exact D|]. split; [exact A|]. intros a b -> ->. destruct N; discriminate.
Qed.
Theorem C98_times_still_used_refuted :
  exists listing, tidy (day 2026 1 1) "ocb" listing /\ candidate "ocb" listing (s2l "image_north_circle.ocb") /\
    get_default_file "d" listing (day 2026 1 1) (Some (day 2015 1 1)) (Some (day 2015 1 2)) 1 "image" "ocb" = Ok (None, s2l "image").
Proof.
  exists two_files. split; [apply two_tidy|]. split; [cand; exists (s2l "image_north_circle."), (s2l "ocb"); auto|]. vm_compute. reflexivity.
Qed.
Example C98_case : candidate "ocb" two_files (s2l "image_north_circle.ocb") /\ answers "image" "image" /\
  get_default_file "d" two_files (day 2026 1 1) (Some (day 2015 1 1)) None 1 "image" "ocb" = Ok (Some (s2l "d/image_north_circle.ocb"), s2l "image").
Proof.
  split; [cand; exists (s2l "image_north_circle."), (s2l "ocb"); auto|]. split; [right; right; left; cbn; auto|]. vm_compute. reflexivity.
Qed.
Print Assumptions C98_instrument_overrides_partial.
Print Assumptions C98_times_still_used_refuted.
