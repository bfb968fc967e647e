(** Proofs about the boundary directory. *)
From Coq Require Import String Ascii ZArith List Bool Lia.
From Verif Require Import PyBase PyString TimeModel TimeSpec TimeProofs TimeProofs2 TimeProofs3 TimeProofs4 FilesModel FilesSpec.
Import ListNotations.
Open Scope string_scope.
Open Scope list_scope.
Open Scope Z_scope.

(** ** Strings *)
Lemma str_eqb_spec a b : str_eqb a b = true <-> a = b.
Proof.
  revert b. induction a as [|x a IH]; intros [|y b]; cbn; try (split; intros; congruence).
  rewrite andb_true_iff, IH, Ascii.eqb_eq. split; [intros [-> ->]; reflexivity|intros E; injection E; auto].
Qed.
Lemma str_eqb_refl a : str_eqb a a = true. Proof. apply str_eqb_spec. reflexivity. Qed.
Lemma str_eqb_neq a b : a <> b -> str_eqb a b = false.
Proof. intros H. destruct (str_eqb a b) eqn:E; [apply str_eqb_spec in E; contradiction|reflexivity]. Qed.
Lemma str_dec (a b : str) : {a = b} + {a <> b}. Proof. apply list_eq_dec, ascii_dec. Qed.
Lemma member_spec k l : member k l = true <-> In k l.
Proof.
  unfold member. rewrite existsb_exists. split.
  - intros (x & I & E). apply str_eqb_spec in E. congruence.
  - intros I. exists k. split; [exact I|apply str_eqb_refl].
Qed.
Lemma split_plain p : plain p -> split "_" p = [p].
Proof.
  induction p as [|a p IH]; intros H; [reflexivity|]. cbn. destruct (Ascii.eqb_spec a "_") as [->|N]; [exfalso; apply H; left; reflexivity|].
  rewrite IH by (intros I; apply H; right; exact I). reflexivity.
Qed.
Lemma split_app p r : plain p -> split "_" (p ++ "_"%char :: r) = p :: split "_" r.
Proof.
  induction p as [|a p IH]; intros H; [reflexivity|]. cbn [app split]. destruct (Ascii.eqb_spec a "_") as [->|N]; [exfalso; apply H; left; reflexivity|].
  rewrite IH by (intros I; apply H; right; exact I). reflexivity.
Qed.
Lemma split_joined ps : ps <> [] -> Forall plain ps -> split "_" (joined ps) = ps.
Proof.
  induction ps as [|p ps IH]; intros N F; [contradiction|]. inversion F as [|? ? P F']; subst. destruct ps as [|q ps].
  - apply split_plain. exact P.
  - change (joined (p :: q :: ps)) with (p ++ "_"%char :: joined (q :: ps)). rewrite split_app by exact P. rewrite IH; [reflexivity|discriminate|exact F'].
Qed.
Lemma prefix_spec p s : prefix p s = true <-> exists r, s = p ++ r.
Proof.
  revert s. induction p as [|a p IH]; intros s; cbn.
  - split; [eauto|reflexivity].
  - destruct s as [|b s]; [split; [discriminate|intros [r E]; discriminate]|]. rewrite andb_true_iff, Ascii.eqb_eq, IH. split.
    + intros [-> [r ->]]. eauto.
    + intros [r E]. injection E as -> ->. eauto.
Qed.
Lemma contains_spec sub s : contains sub s = true <-> exists a b, s = a ++ sub ++ b.
Proof.
  unfold contains. induction s as [|c s IH]; cbn.
  - destruct (prefix sub []) eqn:P; (split; [intros H|intros (a & b & E)]); try discriminate; try reflexivity.
    + apply prefix_spec in P. destruct P as [r ->]. exists [], r. reflexivity.
    + destruct a; [|discriminate]. cbn in E. rewrite (proj2 (prefix_spec sub [])) in P; [discriminate|]. eauto.
  - destruct (prefix sub (c :: s)) eqn:P.
    + split; [intros _|reflexivity]. apply prefix_spec in P. destruct P as [r ->]. exists [], r. reflexivity.
    + destruct (find sub s) as [n|] eqn:F; cbn.
      * split; [intros _|reflexivity]. destruct (proj1 IH eq_refl) as (a & b & ->). exists (c :: a), b. reflexivity.
      * split; [discriminate|]. intros (a & b & E). destruct a as [|c' a].
        { rewrite (proj2 (prefix_spec sub (c :: s))) in P; [discriminate|]. cbn in E. eauto. }
        injection E as <- ->. apply IH. eauto.
Qed.
Lemma lowers_length s : length (lowers s) = length s. Proof. apply map_length. Qed.
Lemma take_last_app {a b : str} : length b = 3%nat -> take_last 3 (a ++ b) = b.
Proof.
  intros H. unfold take_last. rewrite app_length, H. replace (length a + 3 - 3)%nat with (length a) by lia.
  rewrite skipn_app, skipn_all, Nat.sub_diag. reflexivity.
Qed.

(** ** Names of boundary files *)
Lemma candidate_spec bound listing name : length bound = 3%nat ->
  (candidate bound listing name <-> In (name, true) listing /\ is_boundary bound (name, true) = true).
Proof.
  intros L. unfold candidate, is_boundary. cbn [fst snd]. rewrite !andb_true_iff, !negb_true_iff. cbn [andb].
  rewrite <- (not_true_iff_false (contains ".py" name)), <- (not_true_iff_false (contains "README" name)), !contains_spec, str_eqb_spec. split.
  - intros (I & A & B & stem & ext & -> & LE & E). split; [exact I|]. split; [split; [split; [reflexivity|exact A]|exact B]|].
    rewrite (take_last_app LE). exact E.
  - intros (I & [[_ A] B] & E). split; [exact I|]. split; [exact A|]. split; [exact B|].
    exists (firstn (length name - 3) name), (take_last 3 name). unfold take_last in *. split; [symmetry; apply firstn_skipn|]. split; [|exact E].
    apply (f_equal (@length _)) in E. rewrite !lowers_length in E. congruence.
Qed.
Lemma drop_ext bound name x c : length bound = 3%nat -> lowers name = x ++ c :: lowers bound -> drop_last 4 (lowers name) = x.
Proof.
  intros L ->. unfold drop_last. rewrite app_length. cbn [length]. rewrite lowers_length, L.
  replace (length x + 4 - 4)%nat with (length x) by lia. rewrite firstn_app, firstn_all, Nat.sub_diag. cbn. apply app_nil_r.
Qed.
Lemma midnight_eq y m d t : midnight y m d t -> t = day y m d.
Proof. intros (n & C & ->). apply calendar_day_spec in C. destruct C as (_ & _ & _ & ->). reflexivity. Qed.
Lemma known_lookup tomorrow inst s e : known_span tomorrow inst s e -> lookup inst (spans tomorrow) = Some (s, e).
Proof.
  intros [(-> & A & B)|[(-> & A & B)|[(-> & A & B)|[(-> & A & B)|[(-> & A & B)|(-> & A & B)]]]]]; apply midnight_eq in A;
    try apply midnight_eq in B; subst; reflexivity.
Qed.
Lemma unknown_lookup tomorrow inst : ~ In inst known -> lookup inst (spans tomorrow) = None.
Proof.
  intros H. unfold spans. cbn [lookup]. rewrite !str_eqb_neq; [reflexivity|..]; intros ->; apply H; cbn; auto 10.
Qed.

Definition cd_toks := [TDir DY; TDir Dm; TDir Dd].
Lemma cd_parse : parse_fmt "%Y%m%d" = Some cd_toks. Proof. reflexivity. Qed.
Lemma compact_read s t : compact_date s t -> sp_time (strptime s "%Y%m%d") = Ok t.
Proof.
  intros (y & m & d & n & sy & sm & sd & C & Y & M & D & -> & ->). apply calendar_day_spec in C. destruct C as (Hy & Hm & Hd & ->).
  pose proof (month_len_31 y m) as D31. destruct (date4_value sy y Y) as [Y2 _].
  apply date2_pad2 in M. apply date2_pad2 in D. destruct M as [-> _]. destruct D as [-> _].
  assert (K : mk_datetime y m d 0 0 0 0 = Ok (ordinal y m d * us_day)).
  { rewrite mk_datetime_ok by lia. f_equal. lia. }
  rewrite (strptime_hd _ _ _ cd_parse). unfold cd_toks.
  rewrite (matches_Y4 sy y) by exact Y. rewrite hd_map.
  rewrite (hd_dir Dm _ (pad2 m) (pad2 d) ([(Dd, pad2 d)], [])); [|apply cand_m; exact Hm|apply matches_d_end; lia].
  cbn [option_map fst snd]. unfold build. cbn [fold_left set_field fst snd fY fm fd fj fH fM fS ff].
  rewrite (int_sp_4 sy y Y). rewrite !int_sp_pad2 by lia. rewrite K.
  replace ((1 <=? y) && (y <=? 9999)) with true
    by (symmetry; apply andb_true_iff; rewrite !Z.leb_le; lia). exact K.
Qed.

Lemma hemi_word_of h w : hemi_word h w -> hemi_of w = Ok h.
Proof. intros [[-> ->]|[-> ->]]; reflexivity. Qed.
Lemma file_info_spec tomorrow bound name inst h s e : length bound = 3%nat -> describes tomorrow bound name inst h s e ->
  file_info tomorrow name = Ok (mkInfo inst h (Some s) (Some e)).
Proof.
  intros L (w & parts & c & E & P & W & SP). unfold file_info. rewrite (drop_ext _ _ _ _ L E), split_joined by (discriminate || exact P).
  rewrite (hemi_word_of h w W). cbn [bind]. destruct SP as [K|(U & a & b & rest & -> & A & B)].
  - rewrite (known_lookup _ _ _ _ K). reflexivity.
  - rewrite (unknown_lookup _ _ U), (compact_read _ _ A), (compact_read _ _ B). reflexivity.
Qed.

(** ** The files of a directory *)
Lemma files_total tomorrow bound listing : length bound = 3%nat -> tidy tomorrow bound listing ->
  exists files, get_boundary_files tomorrow bound listing = Ok files.
Proof.
  intros L. induction listing as [|[n f] t IH]; intros T; cbn; [eauto|].
  assert (T' : tidy tomorrow bound t).
  { intros name (I & C). apply T. split; [right; exact I|exact C]. }
  destruct (IH T') as [fs E]. destruct (is_boundary bound (n, f)) eqn:B; [|eauto].
  assert (f = true) as -> by (unfold is_boundary in B; cbn [snd] in B; destruct f; [reflexivity|discriminate]).
  destruct (T n) as (inst & h & s & e & D). { apply candidate_spec; [exact L|]. split; [left; reflexivity|exact B]. }
  rewrite (file_info_spec _ _ _ _ _ _ _ L D), E. cbn. eauto.
Qed.
Lemma files_in tomorrow bound listing files : length bound = 3%nat -> get_boundary_files tomorrow bound listing = Ok files ->
  forall n i, In (n, i) files <-> candidate bound listing n /\ file_info tomorrow n = Ok i.
Proof.
  intros L. revert files. induction listing as [|[m f] t IH]; intros files E n i; cbn in E.
  - injection E as <-. split; [intros []|intros [[[] _] _]].
  - assert (ST : forall b, is_boundary bound (m, f) = b -> (candidate bound ((m, f) :: t) n <-> (n = m /\ b = true) \/ candidate bound t n)).
    { intros b B. rewrite !(candidate_spec _ _ _ L). split.
      - intros [[X|I] C]; [injection X as -> ->; left; split; congruence|right; auto].
      - intros [[-> ->]|[I C]]; [|split; [right; exact I|exact C]].
        assert (f = true) as -> by (unfold is_boundary in B; cbn [snd] in B; destruct f; [reflexivity|discriminate]).
        split; [left; reflexivity|exact B]. }
    destruct (is_boundary bound (m, f)) eqn:B.
    + destruct (file_info tomorrow m) as [im|] eqn:FI; [|discriminate]. cbn [bind fst] in E.
      destruct (get_boundary_files tomorrow bound t) as [r|]; [|discriminate]. cbn [bind] in E. injection E as <-.
      rewrite (ST true eq_refl). cbn [In]. rewrite (IH r eq_refl). split.
      * intros [X|[C F]]; [injection X as -> ->; split; [left; auto|exact FI]|split; [right; exact C|exact F]].
      * intros [[[-> _]|C] F]; [left; congruence|right; auto].
    + rewrite (ST false eq_refl), (IH files E). split; [intros [C F]; split; [right; exact C|exact F]|intros [[[_ X]|C] F]; [discriminate|auto]].
Qed.

(** ** Files that fit *)
Lemma wanted_spec instrument inst : In inst (wanted instrument) <-> answers instrument inst.
Proof.
  unfold wanted, answers. destruct instrument as [|a t] eqn:EI.
  - split; [intros H; left; split; [reflexivity|]; cbn in *; tauto|].
    intros [[_ H]|[[H _]|[[H _]|[H _]]]]; try discriminate; [cbn in *; tauto|contradiction].
  - rewrite <- EI. assert (NE : instrument <> []) by congruence. clear EI a t.
    destruct (str_dec instrument (s2l "ampere")) as [E|N1]; [rewrite E, str_eqb_refl; cbn; split|rewrite (str_eqb_neq _ _ N1)].
    { intros [<-|[]]. right. left. auto. }
    { intros [[H _]|[[_ ->]|[[H _]|(_ & H & _)]]]; [discriminate|left; reflexivity|discriminate|contradiction]. }
    destruct (str_dec instrument (s2l "image")) as [E|N2]; [rewrite E, str_eqb_refl; cbn; split|rewrite (str_eqb_neq _ _ N2)].
    { intros H. right. right. left. split; [reflexivity|]. exact H. }
    { intros [[H _]|[[H _]|[[_ H]|(_ & _ & H & _)]]]; [discriminate|discriminate|exact H|contradiction]. }
    assert (G : In inst [instrument] <-> answers instrument inst).
    { unfold answers. split; [intros [<-|[]]; right; right; right; auto|].
      intros [[H _]|[[H _]|[[H _]|(_ & _ & _ & H)]]]; try contradiction. left. congruence. }
    destruct (str_dec instrument (s2l "dmsp-ssj")) as [E|N3]; [|rewrite (str_eqb_neq _ _ N3); exact G].
    rewrite E in *. exact G.
Qed.
Definition dated (files : list (str * info)) : Prop := forall n i, In (n, i) files -> exists s e, fi_stime i = Some s /\ fi_etime i = Some e.
Lemma good_total st et h inst files : dated files -> exists g, good_files st et h inst files = Ok g.
Proof.
  induction files as [|[n i] t IH]; intros D; cbn; [eauto|]. destruct IH as [g E]; [intros m j J; eapply D; right; exact J|].
  destruct ((fi_hemi i =? h) && member (fi_inst i) inst); [|eauto]. destruct (D n i) as (s & e & S & X); [left; reflexivity|].
  assert (exists b, time_ok st et i = Ok b) as [b ->].
  { unfold time_ok. destruct st as [a|], et as [b|]; eauto. rewrite X, S. destruct (a <=? e); eauto. }
  rewrite E. cbn. eauto.
Qed.
Lemma good_in st et h inst files g : good_files st et h inst files = Ok g ->
  forall n i, In (n, i) g <-> In (n, i) files /\ fi_hemi i = h /\ In (fi_inst i) inst /\ time_ok st et i = Ok true.
Proof.
  revert g. induction files as [|[m j] t IH]; intros g E n i; cbn in E.
  - injection E as <-. cbn. tauto.
  - destruct ((fi_hemi j =? h) && member (fi_inst j) inst) eqn:C.
    + apply andb_true_iff in C. destruct C as [C1 C2]. apply Z.eqb_eq in C1. apply member_spec in C2.
      destruct (time_ok st et j) as [b|] eqn:T; [|discriminate]. cbn [bind] in E.
      destruct (good_files st et h inst t) as [r|]; [|discriminate]. cbn [bind] in E. injection E as <-.
      specialize (IH r eq_refl n i). destruct b; cbn [In]; rewrite IH; split.
      * intros [X|(I & R)]; [injection X as -> ->; auto|tauto].
      * intros ([X|I] & R); [left; exact X|right; tauto].
      * intros (I & R). tauto.
      * intros ([X|I] & R1 & R2 & R3); [injection X as -> ->; congruence|tauto].
    + rewrite (IH g E). cbn [In]. split; [tauto|]. intros ([X|I] & R1 & R2 & R3); [|tauto].
      injection X as -> ->. rewrite R1, Z.eqb_refl, (proj2 (member_spec _ _) R2) in C. discriminate.
Qed.
Lemma period_spec st et n h s e : time_ok st et (mkInfo n h (Some s) (Some e)) = Ok true <-> in_period st et s e.
Proof.
  unfold time_ok, in_period. destruct st as [a|], et as [b|]; cbn; try (split; [intros _ ? ?; congruence|reflexivity]).
  destruct (Z.leb_spec a e), (Z.leb_spec s b); (split; [intros X ? ? Y1 Y2; try discriminate; injection Y1 as <-; injection Y2 as <-; lia|
    intros X; destruct (X a b eq_refl eq_refl); try lia; try reflexivity]).
Qed.

(** ** The choice *)
Lemma index_spec k l n : index k l = Ok n -> exists a b, l = a ++ k :: b /\ length a = n /\ ~ In k a.
Proof.
  revert n. induction l as [|x l IH]; intros n E; cbn in E; [discriminate|]. destruct (str_eqb k x) eqn:K.
  - injection E as <-. apply str_eqb_spec in K. subst x. exists [], l. auto.
  - destruct (index k l) as [m|]; [|discriminate]. cbn in E. injection E as <-. destruct (IH m eq_refl) as (a & b & -> & <- & N).
    exists (x :: a), b. split; [reflexivity|]. split; [reflexivity|]. intros [<-|I]; [rewrite str_eqb_refl in K; discriminate|auto].
Qed.
Lemma index_total k l : In k l -> exists n, index k l = Ok n.
Proof.
  induction l as [|x l IH]; [intros []|]; intros [->|I]; cbn; [rewrite str_eqb_refl; eauto|]. destruct (str_eqb k x); [eauto|]. destruct (IH I) as [n ->]. cbn. eauto.
Qed.
Lemma index_err k l : ~ In k l -> index k l = Err ValueError.
Proof.
  induction l as [|x l IH]; intros N; [reflexivity|]. cbn. rewrite str_eqb_neq, IH; [reflexivity|..]; intros X; apply N; [right|left]; auto.
Qed.
Lemma index_in k l n : index k l = Ok n -> In k l.
Proof. intros E. apply index_spec in E. destruct E as (a & b & -> & _). apply in_or_app. right. left. reflexivity. Qed.
Lemma put_in {A} k (v : A) d k' v' : In (k', v') (put k v d) -> (k', v') = (k, v) \/ In (k', v') d.
Proof.
  induction d as [|[j w] d IH]; cbn; [intros [<-|[]]; auto|]. destruct (Nat.eqb_spec k j) as [->|N].
  - intros [<-|I]; auto.
  - intros [<-|I]; auto. destruct (IH I); auto.
Qed.
Lemma put_keys {A} k (v : A) d k' : (k' = k \/ In k' (map fst d)) <-> In k' (map fst (put k v d)).
Proof.
  induction d as [|[j w] d IH]; cbn; [intuition|]. destruct (Nat.eqb_spec k j) as [->|N]; cbn; [intuition|]. rewrite <- IH. intuition.
Qed.
Lemma smallest_spec {A} (d : list (nat * A)) p : smallest d = Some p -> In p d /\ forall k, In k (map fst d) -> (fst p <= k)%nat.
Proof.
  revert p. induction d as [|q d IH]; intros p E; cbn [smallest] in E; [discriminate|]. destruct (smallest d) as [r|] eqn:S.
  - destruct (IH r eq_refl) as [I L]. destruct (Nat.ltb_spec (fst r) (fst q)); injection E as <-; cbn.
    + split; [auto|]. intros k [<-|K]; [lia|auto].
    + split; [auto|]. intros k [<-|K]; [lia|]. specialize (L k K). lia.
  - injection E as <-. cbn. split; [auto|]. destruct d as [|q' d]; [intros k [<-|[]]; lia|].
    cbn [smallest] in S. destruct (smallest d) as [r|]; [destruct (_ <? _)%nat|]; discriminate.
Qed.
Lemma smallest_total {A} (d : list (nat * A)) : d <> [] -> exists p, smallest d = Some p.
Proof. destruct d as [|p d]; [contradiction|]. intros _. cbn [smallest]. destruct (smallest d) as [q|]; [destruct (_ <? _)%nat|]; eauto. Qed.
Lemma ranked_total files d : (forall f, In f files -> In (fi_inst (snd f)) order) -> exists d', ranked files d = Ok d'.
Proof.
  revert d. induction files as [|f t IH]; intros d H; cbn [ranked]; [eauto|]. destruct (index_total (fi_inst (snd f)) order) as [n ->]; [apply H; left; reflexivity|].
  cbn [bind]. apply IH. intros g G. apply H. right. exact G.
Qed.
Lemma ranked_spec files d d' : ranked files d = Ok d' ->
  (forall k f, In (k, f) d' -> In (k, f) d \/ In f files /\ index (fi_inst (snd f)) order = Ok k) /\
  (forall k, In k (map fst d) -> In k (map fst d')) /\
  (forall f, In f files -> exists k, index (fi_inst (snd f)) order = Ok k /\ In k (map fst d')).
Proof.
  revert d. induction files as [|f t IH]; intros d E; cbn [ranked] in E.
  - injection E as <-. split; [auto|]. split; [auto|intros f []].
  - destruct (index (fi_inst (snd f)) order) as [n|] eqn:N; [|discriminate]. cbn [bind] in E. destruct (IH _ E) as (A & B & C). split; [|split].
    + intros k g I. destruct (A k g I) as [J|[J K]]; [|right; split; [right; exact J|exact K]].
      apply put_in in J. destruct J as [J|J]; [injection J as -> ->; right; split; [left; reflexivity|exact N]|left; exact J].
    + intros k I. apply B. apply put_keys. right. exact I.
    + intros g [<-|I]; [|exact (C g I)]. exists n. split; [exact N|]. apply B. apply put_keys. left. reflexivity.
Qed.
Lemma ranked_err files d f : In f files -> ~ In (fi_inst (snd f)) order -> ranked files d = Err ValueError.
Proof.
  revert d. induction files as [|g t IH]; [intros d []|]; intros d [->|I] N; cbn [ranked].
  - rewrite index_err by exact N. reflexivity.
  - destruct (index (fi_inst (snd g)) order) as [n|e] eqn:E; cbn [bind]; [apply IH; assumption|]. f_equal.
    destruct (in_dec str_dec (fi_inst (snd g)) order) as [J|J]; [destruct (index_total _ _ J); congruence|rewrite index_err in E by exact J; congruence].
Qed.
Lemma ranked_none f t d d' : ranked (f :: t) d = Ok d' -> d' <> [].
Proof.
  intros E. destruct (ranked_spec _ _ _ E) as (_ & _ & C). destruct (C f (or_introl eq_refl)) as (k & _ & I). destruct d'; [destruct I|discriminate].
Qed.
Lemma NoDup_order : NoDup order.
Proof. repeat constructor; cbn; intros H; repeat (destruct H as [H|H]; [discriminate H|]); destruct H. Qed.
Lemma preferred_rank a b i j : index a order = Ok i -> index b order = Ok j -> (preferred a b <-> (i < j)%nat).
Proof.
  intros A B. apply index_spec in A. apply index_spec in B. destruct A as (a1 & a2 & EA & <- & NA), B as (b1 & b2 & EB & <- & NB).
  unfold preferred. change known with order. split.
  - intros (l1 & l2 & l3 & E). pose proof NoDup_order as ND.
    assert (U : forall x (p q p' q' : list str), NoDup (p ++ x :: q) -> p ++ x :: q = p' ++ x :: q' -> p = p').
    { clear. intros x p. induction p as [|y p IH]; intros q p' q' ND E; destruct p' as [|z p']; cbn in *; auto.
      - injection E as <- E. exfalso. apply NoDup_cons_iff in ND. apply (proj1 ND). rewrite E. apply in_or_app. right. left. reflexivity.
      - injection E as -> E. exfalso. apply NoDup_cons_iff in ND. apply (proj1 ND). apply in_or_app. right. left. reflexivity.
      - injection E as <- E. f_equal. apply NoDup_cons_iff in ND. eapply IH; [exact (proj2 ND)|exact E]. }
    rewrite E in ND. pose proof (U a l1 _ a1 a2 ND (eq_trans (eq_sym E) EA)) as ->.
    replace (a1 ++ a :: l2 ++ b :: l3) with ((a1 ++ a :: l2) ++ b :: l3) in * by (rewrite <- app_assoc; reflexivity).
    pose proof (U b _ _ b1 b2 ND (eq_trans (eq_sym E) EB)) as <-. rewrite app_length. cbn. lia.
  - intros L. rewrite EA in EB. assert (H : exists l2, b1 = a1 ++ a :: l2).
    { clear - L EB. revert b1 L EB. induction a1 as [|x a1 IH]; intros [|y b1] L E; cbn in *; try lia.
      - injection E as <- E. eauto.
      - injection E as <- E. destruct (IH b1) as [l2 ->]; [lia|exact E|]. exists l2. reflexivity. }
    destruct H as [l2 ->]. exists a1, l2, b2. rewrite EA, EB, <- app_assoc. reflexivity.
Qed.
Lemma long_name_spec inst : loaded_as inst (long_name inst).
Proof.
  unfold long_name, loaded_as. cbn [lookup]. destruct (str_dec inst (s2l "amp")) as [->|N1]; [left; auto|].
  rewrite (str_eqb_neq _ _ N1). right. destruct (str_dec inst (s2l "si12")) as [->|N2]; [left; cbn; auto|]. rewrite (str_eqb_neq _ _ N2).
  destruct (str_dec inst (s2l "si13")) as [->|N3]; [left; cbn; auto|]. rewrite (str_eqb_neq _ _ N3).
  destruct (str_dec inst (s2l "wic")) as [->|N4]; [left; cbn; auto 6|]. rewrite (str_eqb_neq _ _ N4). right. split; [|reflexivity].
  intros [H|[H|[H|[H|[]]]]]; symmetry in H; contradiction.
Qed.
