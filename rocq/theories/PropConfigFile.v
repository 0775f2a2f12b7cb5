(** * Properties C122-C124: the keys of a configuration file *)
From Verif Require Import Base BaseFacts ModelResults ModelConfig ModelFilter ModelOptions ModelConfigFile
  SpecConfig SpecFilter SpecOptions SpecConfigFile ProofConfig ProofFilter ProofOptions ProofConfigFile PropOptions.
From Coq Require Import Permutation.

(** A file with contents other than white space that LLVM reads as the mapping [d]. *)
Definition document (read : str -> option str) (parse : str -> option ynode) (path : str) (d : list (str * ynode)) : Prop :=
  exists content, read path = Some content /\ (exists c, In c content /\ isspace c = false)
  /\ parse content = Some (YMap d).

Lemma document_read read parse path d : document read parse path d ->
  ConfigFile_read read (yaml_of parse) path
  = if createHNodes (YMap d) then fst (ConfigFile_mapping (YMap d) cf_initial) else cf_initial.
Proof.
  intros (content & R & (c & I & B) & P). unfold ConfigFile_read. rewrite R.
  replace (forallb config_blank content) with false.
  - unfold yaml_of. now rewrite P.
  - symmetry. apply not_true_iff_false. intros F. rewrite forallb_forall in F. specialize (F c I).
    clear -F B. destruct c as [[] [] [] [] [] [] [] []]; vm_compute in F, B; discriminate.
Qed.
Lemma written_parts d : well_written d -> NoDup (map fst d) /\ createHNodes (YMap d) = true /\ all_shaped d known_keys.
Proof.
  intros (K & A). split; [|split; auto].
  - now inversion K.
  - now apply createHNodes_iff.
Qed.

(** ** C122 *)
(** Every key of a well-written document sets its own field to what it says. *)
Theorem c122_document_says : forall read parse path d key,
  document read parse path d -> well_written d -> In key known_keys ->
  set_by d (ConfigFile_read read (yaml_of parse) path) key.
Proof.
  intros read parse path d key D W I. destruct (written_parts d W) as (N & C & A).
  rewrite (document_read _ _ _ _ D), C. now apply mapping_ok.
Qed.

(** The order of the keys does not matter. *)
Theorem c122_order_irrelevant : forall read parse read' parse' path path' d d',
  document read parse path d -> document read' parse' path' d' -> no_key_twice (YMap d) -> Permutation d d' ->
  ConfigFile_read read (yaml_of parse) path = ConfigFile_read read' (yaml_of parse') path'.
Proof.
  intros read parse read' parse' path path' d d' D D' K P.
  assert (K' : no_key_twice (YMap d')).
  { inversion K as [| | |? N F]; subst. constructor.
    - eapply Permutation_NoDup; [apply (Permutation_map fst P)|auto].
    - eapply Permutation_Forall; eauto. }
  rewrite (document_read _ _ _ _ D), (document_read _ _ _ _ D').
  rewrite (proj2 (createHNodes_iff _) K), (proj2 (createHNodes_iff _) K').
  apply mapping_ext. intros k _. apply mapping_value_perm; auto. now inversion K.
Qed.

(** A key that is not one of the twelve, whatever it has, changes nothing. *)
Theorem c122_other_keys_harmless : forall read parse read' parse' path path' a b k n,
  document read parse path (a ++ (k, n) :: b) -> document read' parse' path' (a ++ b) ->
  no_key_twice (YMap (a ++ (k, n) :: b)) -> ~ In k known_keys ->
  ConfigFile_read read (yaml_of parse) path = ConfigFile_read read' (yaml_of parse') path'.
Proof.
  intros read parse read' parse' path path' a b k n D D' K U.
  assert (K' : no_key_twice (YMap (a ++ b))).
  { inversion K as [| | |? N F]; subst. constructor.
    - rewrite map_app in N |- *. cbn [map fst] in N. eapply NoDup_remove_1; eauto.
    - apply Forall_app in F as [F1 F2]. inversion F2; subst. apply Forall_app; auto. }
  rewrite (document_read _ _ _ _ D), (document_read _ _ _ _ D').
  rewrite (proj2 (createHNodes_iff _) K), (proj2 (createHNodes_iff _) K').
  apply mapping_ext. intros k' I. clear - U I.
  induction a as [|[k0 v0] a IH]; simpl; [|now rewrite IH].
  destruct (str_eqb k k') eqn:E; auto. apply str_eqb_eq in E as ->. contradiction.
Qed.

(** The project's file, on the options in force. *)
Definition project_file (e : penv) : str := workingPath e ++ $"/.oclint".
Lemma project_last read yaml e : exists earlier, config_files read yaml e = earlier ++ [ConfigFile_read read yaml (project_file e)].
Proof.
  unfold config_files, project_file. destruct (en_home e) as [[|c h]|].
  - exists [ConfigFile_read read yaml (en_bin e ++ $"/../etc/oclint")]. reflexivity.
  - exists [ConfigFile_read read yaml (en_bin e ++ $"/../etc/oclint"); ConfigFile_read read yaml ((c :: h) ++ $"/.oclint")].
    reflexivity.
  - exists [ConfigFile_read read yaml (en_bin e ++ $"/../etc/oclint")]. reflexivity.
Qed.
Lemma effective_last {T} (l : list (option T)) (x d v : T) : effective None (l ++ [Some x]) d v -> v = x.
Proof.
  intros [(a & y & b & E & F & ->)|[F _]].
  - apply (f_equal (@rev _)) in E. rewrite !rev_app_distr in E. cbn [rev app] in E.
    apply Forall_rev in F. destruct (rev b) as [|z r]; cbn [app] in E.
    + now injection E as ->.
    + inversion F; subst. discriminate E.
  - apply Forall_app in F as [_ F]. inversion F. discriminate.
Qed.
Lemma said_unique {T} (means : ynode -> T -> Prop) d key n v unsaid x :
  (forall a b c, means a b -> means a c -> b = c) -> NoDup (map fst d) -> In (key, n) d -> means n v ->
  says d key means unsaid x -> x = v.
Proof.
  intros U N I M [(m & J & Mx)|[A _]].
  - assert (m = n) as ->; [|eapply U; eauto].
    pose proof (in_mapping_value _ _ _ N I). pose proof (in_mapping_value _ _ _ N J). congruence.
  - exfalso. apply A. now apply (in_map fst) in I.
Qed.
Lemma numeral_det t a b : numeral t a -> numeral t b -> a = b.
Proof. intros A B. apply numeral_signed in A, B. congruence. Qed.
Lemma number_det n a b : one_number n a -> one_number n b -> a = b.
Proof. intros [t z D I] B. inversion B; subst. eapply numeral_det; eauto. Qed.
Lemma text_det n a b : one_text n a -> one_text n b -> a = b.
Proof. intros [] H. now inversion H. Qed.
Lemma flag_det n a b : one_flag n a -> one_flag n b -> a = b.
Proof. intros A B. apply reads_flag in A, B. congruence. Qed.
Lemma texts_det n a b : text_list n a -> text_list n b -> a = b.
Proof. intros A B. apply reads_texts in A, B. congruence. Qed.
Lemma pairs_det n a b : pair_list n a -> pair_list n b -> a = b.
Proof. intros A B. apply reads_pairs in A, B. congruence. Qed.

(** In force: numbers, texts and flags of the project's file decide when the command line
    does not say otherwise. *)
Theorem c122_options_in_force : forall read parse e cl s d,
  process read (yaml_of parse) e cl = Val s -> document read parse (project_file e) d -> well_written d ->
  (forall t z, In ($"max-priority-1", YScalar t) d -> numeral t z -> z <> INT_MIN -> cl_maxP1 cl = None -> maxP1 s = z)
  /\ (forall t z, In ($"max-priority-2", YScalar t) d -> numeral t z -> z <> INT_MIN -> cl_maxP2 cl = None -> maxP2 s = z)
  /\ (forall t z, In ($"max-priority-3", YScalar t) d -> numeral t z -> z <> INT_MIN -> cl_maxP3 cl = None -> maxP3 s = z)
  /\ (forall t, In ($"output", YScalar t) d -> t <> [] -> cl_output cl = None -> o_value (argOutput s) = t)
  /\ (forall t, In ($"report-type", YScalar t) d -> t <> [] -> cl_reportType cl = None -> reportType s = t)
  /\ (forall n v, In ($"enable-global-analysis", n) d -> one_flag n v -> cl_globalAnalysis cl = None ->
       (enableGlobalAnalysis s = true <-> v = TTrue))
  /\ (forall n v, In ($"enable-clang-static-analyzer", n) d -> one_flag n v -> cl_clangChecker cl = None ->
       (enableClangChecker s = true <-> v = TTrue))
  /\ (forall n v, In ($"allow-duplicated-violations", n) d -> one_flag n v -> cl_duplications cl = None ->
       (allowDuplicatedViolations s = true <-> v = TTrue)).
Proof.
  intros read parse e cl s d P D W.
  destruct (c16_option_precedence _ _ _ _ _ P) as (H1 & H2 & H3 & H4 & H5 & H6 & H7 & H8).
  destruct (project_last read (yaml_of parse) e) as (earlier & Ef). rewrite Ef in *.
  rewrite !map_app in *. cbn [map] in *.
  pose proof (fun k I => c122_document_says _ _ _ _ k D W I) as S. destruct (written_parts d W) as (N & _ & A).
  set (f := ConfigFile_read read (yaml_of parse) (project_file e)) in *.
  assert (NUM : forall k t z, In k numbers -> In (k, YScalar t) d -> numeral t z -> one_number (YScalar t) z).
  { intros k t z Ik I Dz. destruct A as (_ & _ & _ & A & _). destruct (A k) with (n := YScalar t) as (z' & M); auto.
    - unfold known_keys. rewrite !in_app_iff. auto.
    - inversion M; subst. rewrite (numeral_det _ _ _ Dz H0). now constructor. }
  repeat split.
  - intros t z I Dz Z C. rewrite C in H3. assert (E : cf_maxP1 f = z).
    { specialize (S $"max-priority-1" ltac:(in_list)). inversion S as [| | | | | | X | | | | |].
      eapply said_unique; [exact number_det|exact N|exact I| |exact X]. eapply NUM; eauto. in_list. }
    unfold says_int in H3. rewrite E in H3. destruct (Z.eq_dec z (-2147483648)); [contradiction|].
    now apply effective_last in H3.
  - intros t z I Dz Z C. rewrite C in H4. assert (E : cf_maxP2 f = z).
    { specialize (S $"max-priority-2" ltac:(in_list)). inversion S as [| | | | | | | X | | | |].
      eapply said_unique; [exact number_det|exact N|exact I| |exact X]. eapply NUM; eauto. in_list. }
    unfold says_int in H4. rewrite E in H4. destruct (Z.eq_dec z (-2147483648)); [contradiction|].
    now apply effective_last in H4.
  - intros t z I Dz Z C. rewrite C in H5. assert (E : cf_maxP3 f = z).
    { specialize (S $"max-priority-3" ltac:(in_list)). inversion S as [| | | | | | | | X | | |].
      eapply said_unique; [exact number_det|exact N|exact I| |exact X]. eapply NUM; eauto. in_list. }
    unfold says_int in H5. rewrite E in H5. destruct (Z.eq_dec z (-2147483648)); [contradiction|].
    now apply effective_last in H5.
  - intros t I Z C. rewrite C in H1. assert (E : cf_output f = t).
    { specialize (S $"output" ltac:(in_list)). inversion S as [| | | | X | | | | | | |].
      eapply said_unique; [exact text_det|exact N|exact I|constructor|exact X]. }
    unfold says_text in H1. rewrite E in H1. destruct t; [contradiction|]. now apply effective_last in H1.
  - intros t I Z C. rewrite C in H2. assert (E : cf_reportType f = t).
    { specialize (S $"report-type" ltac:(in_list)). inversion S as [| | | | | X | | | | | |].
      eapply said_unique; [exact text_det|exact N|exact I|constructor|exact X]. }
    unfold says_text in H2. rewrite E in H2. destruct t; [contradiction|]. now apply effective_last in H2.
  - assert (E : cf_enableGlobalAnalysis f = v).
    { specialize (S $"enable-global-analysis" ltac:(in_list)). inversion S as [| | | | | | | | | | |X].
      eapply said_unique; [exact flag_det|exact N|exact H|exact H0|exact X]. }
    rewrite H9, E in H6. destruct H0; apply effective_last in H6; rewrite H6; congruence.
  - assert (E : cf_enableGlobalAnalysis f = v).
    { specialize (S $"enable-global-analysis" ltac:(in_list)). inversion S as [| | | | | | | | | | |X].
      eapply said_unique; [exact flag_det|exact N|exact H|exact H0|exact X]. }
    rewrite H9, E in H6. destruct H0; apply effective_last in H6; rewrite H6; congruence.
  - assert (E : cf_clangChecker f = v).
    { specialize (S $"enable-clang-static-analyzer" ltac:(in_list)). inversion S as [| | | | | | | | |X| |].
      eapply said_unique; [exact flag_det|exact N|exact H|exact H0|exact X]. }
    rewrite H9, E in H7. destruct H0; apply effective_last in H7; rewrite H7; congruence.
  - assert (E : cf_clangChecker f = v).
    { specialize (S $"enable-clang-static-analyzer" ltac:(in_list)). inversion S as [| | | | | | | | |X| |].
      eapply said_unique; [exact flag_det|exact N|exact H|exact H0|exact X]. }
    rewrite H9, E in H7. destruct H0; apply effective_last in H7; rewrite H7; congruence.
  - assert (E : cf_allowDuplicatedViolations f = v).
    { specialize (S $"allow-duplicated-violations" ltac:(in_list)). inversion S as [| | | | | | | | | |X|].
      eapply said_unique; [exact flag_det|exact N|exact H|exact H0|exact X]. }
    rewrite H9, E in H8. destruct H0; apply effective_last in H8; rewrite H8; congruence.
  - assert (E : cf_allowDuplicatedViolations f = v).
    { specialize (S $"allow-duplicated-violations" ltac:(in_list)). inversion S as [| | | | | | | | | |X|].
      eapply said_unique; [exact flag_det|exact N|exact H|exact H0|exact X]. }
    rewrite H9, E in H8. destruct H0; apply effective_last in H8; rewrite H8; congruence.
Qed.

(** Rules enabled and disabled, and thresholds. *)
Theorem c122_rules_in_force : forall read parse e cl s d name,
  process read (yaml_of parse) e cl = Val s -> document read parse (project_file e) d -> well_written d ->
  ~ In name (cl_rule cl) -> ~ In name (cl_disableRule cl) ->
  (forall n off, In ($"disable-rules", n) d -> text_list n off -> In name off ->
     In name (f_disabled (os_filter s)) /\ ~ In name (f_enabled (os_filter s)))
  /\ (forall n on, In ($"rules", n) d -> text_list n on -> In name on ->
     (forall m off, In ($"disable-rules", m) d -> text_list m off -> ~ In name off) ->
     In name (f_enabled (os_filter s)) /\ ~ In name (f_disabled (os_filter s))).
Proof.
  intros read parse e cl s d name P D W C1 C2.
  destruct (project_last read (yaml_of parse) e) as (earlier & Ef).
  pose proof (fun k I => c122_document_says _ _ _ _ k D W I) as S. destruct (written_parts d W) as (N & _ & A).
  destruct (c18_last_file_decides _ _ _ _ _ name _ _ _ P C2 C1 Ef) as [K1 K2]; [intros f' []|].
  set (f := ConfigFile_read read (yaml_of parse) (project_file e)) in *. split.
  - intros n off I M J. apply K1. replace (cf_disableRules f) with off; auto.
    specialize (S $"disable-rules" ltac:(in_list)). inversion S as [|X| | | | | | | | | |].
    symmetry. eapply said_unique; [exact texts_det|exact N|exact I|exact M|exact X].
  - intros n on I M J U. apply K2.
    + replace (cf_rules f) with on; auto.
      specialize (S $"rules" ltac:(in_list)). inversion S as [X| | | | | | | | | | |].
      symmetry. eapply said_unique; [exact texts_det|exact N|exact I|exact M|exact X].
    + specialize (S $"disable-rules" ltac:(in_list)). inversion S as [|X| | | | | | | | | |].
      destruct X as [(m & Im & Mm)|[_ ->]]; [eapply U; eauto|intros []].
Qed.
Theorem c122_threshold_in_force : forall read parse e cl s d n kvs k v default,
  process read (yaml_of parse) e cl = Val s -> document read parse (project_file e) d -> well_written d ->
  Forall (fun a => (Z.of_nat (length a) <= INT_MAX)%Z) (cl_rc cl) ->
  (forall given, Forall2 rc_setting (cl_rc cl) given -> ~ sets given k) ->
  In ($"rule-configurations", n) d -> pair_list n kvs -> last_setting kvs k v ->
  stringForKey (os_cfg s) k default = Val (v, os_cfg s).
Proof.
  intros read parse e cl s d n kvs k v default P D W L C I M K.
  destruct (project_last read (yaml_of parse) e) as (earlier & Ef).
  pose proof (c122_document_says _ _ _ _ $"rule-configurations" D W ltac:(in_list)) as S.
  destruct (written_parts d W) as (N & _ & A). inversion S as [| | |X| | | | | | | |].
  eapply (c17_last_file_setting_wins _ _ _ _ _ k v default P L C _ _ _ Ef); [intros f' []|].
  replace (cf_ruleConfigurations _) with kvs; auto. symmetry.
  eapply said_unique; [exact pairs_det|exact N|exact I|exact M|exact X].
Qed.

(** A document with everything in it. *)
Definition exf_doc : list (str * ynode) :=
  [($"max-priority-2", YScalar $"17");
   ($"rules", YSeq [YScalar $"GotoStatement"; YScalar $"LongLine"]);
   ($"team", YScalar $"core");
   ($"rule-configurations",
     YSeq [YMap [($"key", YScalar $"LONG_LINE"); ($"value", YScalar $"90")];
           YMap [($"value", YScalar $"7"); ($"key", YScalar $"NESTED_BLOCK_DEPTH")]]);
   ($"disable-rules", YSeq [YScalar $"LongLine"]);
   ($"rule-paths", YEmpty);
   ($"max-priority-1", YScalar $"-3");
   ($"report-type", YScalar $"html");
   ($"enable-global-analysis", YScalar $"true");
   ($"allow-duplicated-violations", YScalar $"false")].
Definition exf_read (p : str) : option str := if str_eqb p $"/w/.oclint" then Some $"x" else None.
Definition exf_parse (t : str) : option ynode := Some (YMap exf_doc).
Lemma exf_document : document exf_read exf_parse (project_file exo_env) exf_doc.
Proof. exists $"x". split; [reflexivity|]. split; [exists "x"%char; split; [left|]; reflexivity|reflexivity]. Qed.
Ltac the_entry := intros ? H; vm_compute in H;
  repeat (destruct H as [H|H]; [first [discriminate H | injection H as <-]|]); try destruct H.
Lemma exf_written : well_written exf_doc.
Proof.
  split; [apply createHNodes_iff; reflexivity|]. repeat split; intros k _ I.
  - destruct I as [<-|[<-|[<-|[]]]]; the_entry.
    + exists [$"GotoStatement"; $"LongLine"]. apply (tl_items [$"GotoStatement"; $"LongLine"]).
    + exists [$"LongLine"]. apply (tl_items [$"LongLine"]).
    + exists []. constructor.
  - destruct I as [<-|[]]; the_entry. exists [($"LONG_LINE", $"90"); ($"NESTED_BLOCK_DEPTH", $"7")].
    constructor. constructor; [|constructor; [|constructor]]; right; eexists;
      (split; [reflexivity|split; [repeat constructor; simpl; intuition discriminate|split; [simpl; intuition auto|]]]);
      split; left; eexists; (split; [simpl; auto|constructor]).
  - destruct I as [<-|[<-|[]]]; the_entry. exists $"html". constructor.
  - destruct I as [<-|[<-|[<-|[]]]]; the_entry.
    + exists (-3)%Z. constructor; [apply decimal_numeral, (dc_neg $"3" 3); [apply dc_pos; [reflexivity|discriminate|constructor]|discriminate]|].
      vm_compute. split; discriminate.
    + exists 17%Z. constructor; [apply decimal_numeral, (dc_pos "1"%char $"7"); [reflexivity|discriminate|repeat constructor]|].
      vm_compute. split; discriminate.
  - destruct I as [<-|[<-|[<-|[]]]]; the_entry; [exists TFalse|exists TTrue]; constructor.
Qed.
Definition exf_cl : cmdline :=
  {| cl_output := None; cl_reportType := None; cl_R := []; cl_rc := [$"LONG_CLASS=5"]; cl_rule := [];
     cl_disableRule := []; cl_maxP1 := Some 1%Z; cl_maxP2 := None; cl_maxP3 := None; cl_globalAnalysis := None;
     cl_clangChecker := None; cl_duplications := None |}.
Example c122_case : document exf_read exf_parse (project_file exo_env) exf_doc /\ well_written exf_doc
  /\ exists s, process exf_read (yaml_of exf_parse) exo_env exf_cl = Val s
  /\ maxP1 s = 1%Z /\ maxP2 s = 17%Z /\ maxP3 s = 20%Z /\ reportType s = $"html" /\ enableGlobalAnalysis s = true
  /\ f_enabled (os_filter s) = [$"GotoStatement"] /\ f_disabled (os_filter s) = [$"LongLine"]
  /\ stringForKey (os_cfg s) $"NESTED_BLOCK_DEPTH" [] = Val ($"7", os_cfg s).
Proof.
  split; [exact exf_document|]. split; [exact exf_written|]. eexists. split; [vm_compute; reflexivity|].
  vm_compute. repeat split.
Qed.

(** Numbers in plain decimal notation mean what they say; a leading zero makes a number octal. *)
Theorem c122_plain_decimal : forall t z, decimal t z -> numeral t z.
Proof. exact decimal_numeral. Qed.
Theorem c122_leading_zero_refuted : exists read parse e cl s d t,
  process read (yaml_of parse) e cl = Val s /\ document read parse (project_file e) d /\ well_written d
  /\ In ($"max-priority-1", YScalar ("0"%char :: t)) d /\ decimal t 10 /\ maxP1 s = 8%Z.
Proof.
  set (d := [($"max-priority-1", YScalar $"010")]).
  exists exf_read, (fun _ => Some (YMap d)), exo_env,
    {| cl_output := None; cl_reportType := None; cl_R := []; cl_rc := []; cl_rule := [];
     cl_disableRule := []; cl_maxP1 := None; cl_maxP2 := None; cl_maxP3 := None; cl_globalAnalysis := None;
     cl_clangChecker := None; cl_duplications := None |}. eexists. exists d, $"10".
  split; [vm_compute; reflexivity|]. split; [|split; [|split; [left; reflexivity|split]]].
  - exists $"x". split; [reflexivity|]. split; [exists "x"%char; split; [left|]; reflexivity|reflexivity].
  - split; [apply createHNodes_iff; reflexivity|]. repeat split; intros k _ I.
    + destruct I as [<-|[<-|[<-|[]]]]; the_entry.
    + destruct I as [<-|[]]; the_entry.
    + destruct I as [<-|[<-|[]]]; the_entry.
    + destruct I as [<-|[<-|[<-|[]]]]; the_entry. exists 8%Z. constructor; [now apply numeral_signed|].
      vm_compute. split; discriminate.
    + destruct I as [<-|[<-|[<-|[]]]]; the_entry.
  - apply (dc_pos "1"%char $"0"); [reflexivity|discriminate|repeat constructor].
  - reflexivity.
Qed.

(** ** C123 *)
(** A wrong value under one key: the keys before it in the documented order are read, the ones
    after it are ignored, wherever they stand in the file. *)
Theorem c123_wrong_value : forall read parse path d before key after n,
  document read parse path d -> no_key_twice (YMap d) -> known_keys = before ++ key :: after ->
  all_shaped d before -> In (key, n) d -> wrong_under key n ->
  let f := ConfigFile_read read (yaml_of parse) path in
  (forall k, In k before -> set_by d f k) /\ (forall k, In k after -> unset f k).
Proof.
  intros read parse path d before key after n D K E A I W f.
  assert (N : NoDup (map fst d)) by now inversion K.
  unfold f. rewrite (document_read _ _ _ _ D), (proj2 (createHNodes_iff _) K).
  destruct (mapping_fault d before key after n N E A I W) as [M1 M2]. split; auto.
  intros k J. split; auto. rewrite E, in_app_iff. right. now right.
Qed.
(** The wrong key itself: nothing is left of a single value or of something that is no list; of a
    list the items before the first wrong one are kept, and the wrong one leaves an entry too
    (an empty name in a list of names). *)
Theorem c123_own_key : forall read parse path d before key after n,
  document read parse path d -> no_key_twice (YMap d) -> known_keys = before ++ key :: after ->
  all_shaped d before -> In (key, n) d -> wrong_under key n ->
  let f := ConfigFile_read read (yaml_of parse) path in
  ((forall l, n <> YSeq l) \/ In key (texts ++ numbers ++ flags) -> unset f key)
  /\ (forall names x rest, In key lists_of_texts -> n = YSeq (map YScalar names ++ x :: rest) -> (forall t, x <> YScalar t) ->
      set_by [(key, YSeq (map YScalar (names ++ [[]])))] f key)
  /\ (forall ns kvs x rest, In key lists_of_pairs -> n = YSeq (ns ++ x :: rest) -> Forall2 pair_item ns kvs ->
      wrong_under key (YSeq [x]) -> exists kv, cf_ruleConfigurations f = kvs ++ [kv]).
Proof.
  intros read parse path d before key after n D K E A I W f.
  assert (N : NoDup (map fst d)) by now inversion K.
  assert (Ik : In key known_keys) by (rewrite E, in_app_iff; right; now left).
  pose proof (mapping_own d before key after n N E A I) as L.
  assert (Ef : f = fst (ConfigFile_mapping (YMap d) cf_initial)).
  { unfold f. rewrite (document_read _ _ _ _ D), (proj2 (createHNodes_iff _) K). reflexivity. }
  rewrite <- Ef in L. clearbody f. clear Ef.
  assert (U : forall T (means : ynode -> T -> Prop) key u x, x = u -> SpecConfigFile.says [] key means u x).
  { intros T means k u x ->. right. split; [intros []|reflexivity]. }
  split; [|split].
  - intros O. split; auto.
    assert (O' : In key (texts ++ numbers ++ flags) \/ forall l, n <> YSeq l) by tauto. clear O.
    destruct L as (L1 & L2 & L3 & L4 & L5 & L6 & L7 & L8 & L9 & L10 & L11 & L12).
    unfold known_keys, lists_of_texts, lists_of_pairs, texts, numbers, flags in Ik. cbn [app In] in Ik.
    assert (NS : In key (lists_of_texts ++ lists_of_pairs) -> forall l, n <> YSeq l).
    { intros J. destruct O' as [O'|O']; auto. exfalso. revert J O'. apply apart. vm_compute. reflexivity. }
    repeat destruct Ik as [<-|Ik]; try destruct Ik.
    + apply sb_rules, U. rewrite (L1 eq_refl). apply own_seq, NS. in_list.
    + apply sb_disable, U. rewrite (L2 eq_refl). apply own_seq, NS. in_list.
    + apply sb_paths, U. rewrite (L3 eq_refl). apply own_seq, NS. in_list.
    + apply sb_conf, U. rewrite (L4 eq_refl). apply own_seq, NS. in_list.
    + apply sb_output, U. rewrite (L5 eq_refl). assert (X : snd (yamlize_text n []) = true) by (eapply wrong_text; [|exact W]; in_list). destruct n; auto. discriminate.
    + apply sb_type, U. rewrite (L6 eq_refl). assert (X : snd (yamlize_text n []) = true) by (eapply wrong_text; [|exact W]; in_list). destruct n; auto. discriminate.
    + apply sb_p1, U. rewrite (L7 eq_refl). apply own_number. eapply wrong_number; [|exact W]. in_list.
    + apply sb_p2, U. rewrite (L8 eq_refl). apply own_number. eapply wrong_number; [|exact W]. in_list.
    + apply sb_p3, U. rewrite (L9 eq_refl). apply own_number. eapply wrong_number; [|exact W]. in_list.
    + apply sb_checker, U. rewrite (L10 eq_refl). apply own_flag. eapply wrong_flag; [|exact W]. in_list.
    + apply sb_dup, U. rewrite (L11 eq_refl). apply own_flag. eapply wrong_flag; [|exact W]. in_list.
    + apply sb_global, U. rewrite (L12 eq_refl). apply own_flag. eapply wrong_flag; [|exact W]. in_list.
  - intros names x rest J -> X. destruct L as (L1 & L2 & L3 & _).
    assert (Q : forall k v, v = names ++ [[]] -> SpecConfigFile.says [(k, YSeq (map YScalar (names ++ [[]])))] k text_list [] v).
    { intros k v ->. left. eexists. split; [now left|]. constructor. }
    destruct J as [<-|[<-|[<-|[]]]].
    + apply sb_rules, Q. rewrite (L1 eq_refl), own_texts by auto. reflexivity.
    + apply sb_disable, Q. rewrite (L2 eq_refl), own_texts by auto. reflexivity.
    + apply sb_paths, Q. rewrite (L3 eq_refl), own_texts by auto. reflexivity.
  - intros ns kvs x rest J -> F X. destruct L as (_ & _ & _ & L4 & _). pose proof J as J'. destruct J as [<-|[]].
    exists (fst (yamlize_pair x ([], []))). rewrite (L4 eq_refl). apply own_pairs; auto.
    pose proof (wrong_pairs _ _ J' X) as Y. unfold yamlize_pairs, yamlize_seq in Y. cbn [fill] in Y.
    destruct (yamlize_pair x ([], [])) as [y e]. destruct e; auto.
Qed.
Example c123_own_case : let n := YSeq [YScalar $"LongLine"; YSeq []; YScalar $"GotoStatement"] in
  let parse := fun _ : str => Some (YMap [($"rules", n); ($"output", YScalar $"a.html")]) in
  document exf_read parse $"/w/.oclint" [($"rules", n); ($"output", YScalar $"a.html")]
  /\ wrong_under $"rules" n
  /\ cf_rules (ConfigFile_read exf_read (yaml_of parse) $"/w/.oclint") = [$"LongLine"; []]
  /\ cf_output (ConfigFile_read exf_read (yaml_of parse) $"/w/.oclint") = [].
Proof.
  cbv zeta. split; [|split; [|split; vm_compute; reflexivity]].
  - exists $"x". split; [reflexivity|]. split; [exists "x"%char; split; [left|]; reflexivity|reflexivity].
  - apply (wu_list_item _ _ (YSeq [])); [left; reflexivity|right; left; reflexivity|discriminate].
Qed.
(** A key that occurs twice, at any depth, and a document that is no mapping: nothing is read. *)
Theorem c123_key_twice : forall read parse path d key,
  document read parse path d -> ~ no_key_twice (YMap d) -> In key known_keys ->
  unset (ConfigFile_read read (yaml_of parse) path) key.
Proof.
  intros read parse path d key D K I. rewrite (document_read _ _ _ _ D).
  rewrite <- createHNodes_iff, not_true_iff_false in K. rewrite K. split; auto.
  unfold known_keys, lists_of_texts, lists_of_pairs, texts, numbers, flags in I. cbn [app In] in I.
  repeat (destruct I as [<-|I]; [finish_key|]); destruct I.
Qed.
Theorem c123_no_mapping : forall read parse path content key,
  read path = Some content -> (forall d, parse content <> Some (YMap d)) -> In key known_keys ->
  unset (ConfigFile_read read (yaml_of parse) path) key.
Proof.
  intros read parse path content key R P I.
  assert (ConfigFile_read read (yaml_of parse) path = cf_initial) as ->.
  { unfold ConfigFile_read, yaml_of. rewrite R. destruct (forallb config_blank content); auto.
    destruct (parse content) as [[| | |d]|]; auto; [|exfalso; eapply P; reflexivity].
    destruct (createHNodes _); reflexivity. }
  split; auto. unfold known_keys, lists_of_texts, lists_of_pairs, texts, numbers, flags in I. cbn [app In] in I.
  repeat (destruct I as [<-|I]; [finish_key|]); destruct I.
Qed.
(** Nothing in between: without double keys, what stands under a known key has its documented
    shape or is wrong. *)
Theorem c123_right_or_wrong : forall d key n,
  no_key_twice (YMap d) -> In (key, n) d -> In key known_keys -> (forall m, In (key, m) d -> wrong_under key m) \/ all_shaped d [key].
Proof.
  intros d key n K I Ik. assert (N : NoDup (map fst d)) by now inversion K.
  assert (U : forall m, In (key, m) d -> m = n).
  { intros m J. pose proof (in_mapping_value _ _ _ N I). pose proof (in_mapping_value _ _ _ N J). congruence. }
  assert (Kn : no_key_twice n).
  { inversion K as [| | |? _ F]; subst. rewrite Forall_forall in F. exact (F _ I). }
  assert (G : forall ks T (means : ynode -> T -> Prop), In key ks -> ((exists v, means n v) \/ wrong_under key n) ->
    (forall m, In (key, m) d -> wrong_under key m) \/ (forall k, In k [key] -> In k ks -> shaped d k means)).
  { intros ks T means _ [[v M]|W]; [right|left].
    - intros k [<-|[]] _ m J. rewrite (U m J). eauto.
    - intros m J. now rewrite (U m J). }
  assert (Sep : forall a b, keys_apart a b = true -> In key a -> forall k, In k [key] -> ~ In k b).
  { intros a b A Ia k [<-|[]] Ib. exact (apart _ _ _ A Ia Ib). }
  unfold known_keys in Ik. rewrite !in_app_iff in Ik. unfold all_shaped.
  assert (Sc : forall x, {t | x = YScalar t} + {forall t, x <> YScalar t}).
  { intros []; [right; discriminate|left; eauto|right; discriminate|right; discriminate]. }
  destruct Ik as [Ik|[Ik|[Ik|[Ik|Ik]]]].
  - destruct (G lists_of_texts _ text_list Ik) as [W|S]; [|now left|right].
    + destruct n as [|t|l|e].
      * left. exists []. constructor.
      * destruct (in_dec (list_eq_dec Ascii.ascii_dec) t [$"null"; $"Null"; $"NULL"; $"~"]) as [X|X].
        -- left. exists []. now constructor.
        -- right. apply wu_list_scalar; auto. apply in_app_iff. auto.
      * destruct (Forall_Exists_dec (fun x => exists t, x = YScalar t)) with (l := l) as [X|X].
        { intros x. destruct (Sc x) as [[t ->]|Y]; [left; eauto|right; intros (t & ->); now apply (Y t)]. }
        -- left. clear -X. induction X as [|x l [t ->] _ (ts & IH)].
           ++ exists []. apply (tl_items []).
           ++ exists (t :: ts). inversion IH; subst. apply (tl_items (t :: ts)).
        -- right. apply Exists_exists in X as (x & Ix & Y). eapply wu_list_item; eauto.
      * right. apply wu_list_map. apply in_app_iff. auto.
    + repeat split; auto; intros k A B; exfalso; refine (Sep _ _ _ Ik k A B); vm_compute; reflexivity.
  - destruct (G lists_of_pairs _ pair_list Ik) as [W|S]; [|now left|right].
    + destruct n as [|t|l|e].
      * left. exists []. constructor.
      * destruct (in_dec (list_eq_dec Ascii.ascii_dec) t [$"null"; $"Null"; $"NULL"; $"~"]) as [X|X].
        -- left. exists []. now constructor.
        -- right. apply wu_list_scalar; auto. apply in_app_iff. auto.
      * assert (Kl : Forall no_key_twice l) by now inversion Kn.
        assert (P : forall x, no_key_twice x -> (exists kv, pair_item x kv) \/ wrong_under key (YSeq [x])
          /\ forall l, In x l -> wrong_under key (YSeq l)).
        { assert (Y : forall x, (forall l, In x l -> wrong_under key (YSeq l)) ->
            wrong_under key (YSeq [x]) /\ forall l, In x l -> wrong_under key (YSeq l)).
          { intros x H. split; auto. apply H. now left. }
          intros x Kx. destruct x as [|t|l'|e].
          - left. exists ([], []). now left.
          - right. apply Y. intros l0 J. eapply wu_pair_item; eauto; discriminate.
          - right. apply Y. intros l0 J. eapply wu_pair_item; eauto; discriminate.
          - assert (Ne : NoDup (map fst e)) by now inversion Kx.
            destruct (Forall_Exists_dec (fun kv : str * ynode => (fst kv = $"key" \/ fst kv = $"value") /\ exists t, snd kv = YScalar t))
              with (l := e) as [X|X].
            { intros [k v]. cbn [fst snd]. destruct (list_eq_dec Ascii.ascii_dec k $"key") as [E1|E1];
              [|destruct (list_eq_dec Ascii.ascii_dec k $"value") as [E2|E2]; [|right; tauto]];
              (destruct (Sc v) as [[t ->]|Z]; [left; split; [auto|eauto]|right; intros [_ (t & ->)]; now apply (Z t)]). }
            + left. rewrite Forall_forall in X.
              assert (V : forall k, exists x, SpecConfigFile.says e k one_text [] x).
              { intros k. destruct (mapping_value e k) as [v|] eqn:Ev.
                - apply mapping_value_in in Ev. destruct (X _ Ev) as [_ (t & Et)]. cbn [snd] in Et. subst v.
                  exists t. left. exists (YScalar t). split; auto. constructor.
                - exists []. right. split; auto. now apply mapping_value_none. }
              destruct (V $"key") as (a & Va), (V $"value") as (b & Vb). exists (a, b). right. exists e.
              repeat split; auto. intros k J. apply in_map_iff in J as (kv & <- & J). now apply X.
            + right. apply Y. intros l0 J. apply Exists_exists in X as ([k v] & Ix & Z). cbn [fst snd] in Z.
              destruct (list_eq_dec Ascii.ascii_dec k $"key") as [E1|E1];
              [|destruct (list_eq_dec Ascii.ascii_dec k $"value") as [E2|E2]].
              * eapply (wu_pair_value key l0 e k v); eauto. intros t ->. apply Z. eauto.
              * eapply (wu_pair_value key l0 e k v); eauto. intros t ->. apply Z. eauto.
              * eapply (wu_pair_key key l0 e k v); eauto. }
        assert (Q : (exists kvs, Forall2 pair_item l kvs) \/ exists x, In x l /\ forall l, In x l -> wrong_under key (YSeq l)).
        { clear - Kl P. induction Kl as [|x l Kx _ IH]; [left; exists []; constructor|].
          destruct (P x Kx) as [(kv & H)|[_ H]]; [|right; exists x; split; [now left|exact H]].
          destruct IH as [(kvs & F)|(y & J & H')]; [left; exists (kv :: kvs); now constructor|].
          right. exists y. split; [now right|exact H']. }
        destruct Q as [(kvs & F)|(x & J & H)]; [left; exists kvs; now constructor|right; now apply H].
      * right. apply wu_list_map. apply in_app_iff. auto.
    + repeat split; auto; intros k A B; exfalso; refine (Sep _ _ _ Ik k A B); vm_compute; reflexivity.
  - destruct (G texts _ one_text Ik) as [W|S]; [|now left|right].
    + destruct (Sc n) as [[t ->]|Y]; [left; exists t; constructor|right].
      apply wu_not_scalar; auto. rewrite !in_app_iff. auto.
    + repeat split; auto; intros k A B; exfalso; refine (Sep _ _ _ Ik k A B); vm_compute; reflexivity.
  - destruct (G numbers _ one_number Ik) as [W|S]; [|now left|right].
    + destruct (Sc n) as [[t ->]|Y]; [|right; apply wu_not_scalar; auto; rewrite !in_app_iff; auto].
      destruct (getAsSigned t) as [z|] eqn:E.
      * apply numeral_signed in E. destruct (in_intb z) eqn:Z.
        -- apply in_intb_iff in Z. left. exists z. now constructor.
        -- right. apply (wu_big_number key t z Ik E). rewrite <- in_intb_iff, Z. discriminate.
      * right. apply wu_no_number; auto. intros z M. apply numeral_signed in M. congruence.
    + repeat split; auto; intros k A B; exfalso; refine (Sep _ _ _ Ik k A B); vm_compute; reflexivity.
  - destruct (G flags _ one_flag Ik) as [W|S]; [|now left|right].
    + destruct (Sc n) as [[t ->]|Y]; [|right; apply wu_not_scalar; auto; rewrite !in_app_iff; auto].
      destruct (list_eq_dec Ascii.ascii_dec t $"true") as [->|E1]; [left; exists TTrue; constructor|].
      destruct (list_eq_dec Ascii.ascii_dec t $"false") as [->|E2]; [left; exists TFalse; constructor|].
      right. now apply wu_no_flag.
    + repeat split; auto; intros k A B; exfalso; refine (Sep _ _ _ Ik k A B); vm_compute; reflexivity.
Qed.
(** Whatever the files contain, the run goes on. *)
Theorem c123_run_goes_on : forall read parse e cl,
  Forall (fun a => (Z.of_nat (length a) <= INT_MAX)%Z) (cl_rc cl) ->
  exists s, process read (yaml_of parse) e cl = Val s.
Proof. intros. now apply c16_processing_never_raises. Qed.

(** Finding: a typing error in a number silently drops a correct entry written before it. *)
Theorem c123_costs_only_itself_refuted : exists read parse path d,
  document read parse path d /\ no_key_twice (YMap d)
  /\ In ($"enable-global-analysis", YScalar $"true") d /\ wrong_under $"max-priority-1" (YScalar $"ten")
  /\ (forall k n, In (k, n) d -> k <> $"max-priority-1" -> set_by [(k, n)] (yaml_of (fun _ => Some (YMap [(k, n)])) []) k)
  /\ unset (ConfigFile_read read (yaml_of parse) path) $"enable-global-analysis".
Proof.
  set (d := [($"enable-global-analysis", YScalar $"true"); ($"max-priority-1", YScalar $"ten")]).
  assert (W : wrong_under $"max-priority-1" (YScalar $"ten")) by (apply wu_no_number; [left; reflexivity|intros z N; apply numeral_signed in N; discriminate N]).
  assert (K : no_key_twice (YMap d)) by (apply createHNodes_iff; reflexivity).
  assert (D : document exf_read (fun _ => Some (YMap d)) (project_file exo_env) d).
  { exists $"x". split; [reflexivity|]. split; [exists "x"%char; split; [left|]; reflexivity|reflexivity]. }
  exists exf_read, (fun _ => Some (YMap d)), (project_file exo_env), d.
  split; [exact D|]. split; [exact K|]. split; [left; reflexivity|]. split; [exact W|]. split.
  - intros k n [E|[E|[]]] Nk; injection E as <- <-; [|contradiction].
    apply sb_global. left. exists (YScalar $"true"). split; [left; reflexivity|constructor].
  - assert (A : all_shaped d (lists_of_texts ++ lists_of_pairs ++ texts)).
    { repeat split; intros k I _; cbn in I; repeat (destruct I as [<-|I]; [the_entry|]); destruct I. }
    apply (proj2 (c123_wrong_value _ _ _ d (lists_of_texts ++ lists_of_pairs ++ texts) $"max-priority-1"
        [$"max-priority-2"; $"max-priority-3"; $"enable-clang-static-analyzer"; $"allow-duplicated-violations";
         $"enable-global-analysis"] _ D K eq_refl A (or_intror (or_introl eq_refl)) W)).
    in_list.
Qed.
Example c123_case : forall read parse path, 
  document read parse path [($"max-priority-1", YScalar $"99999999999"); ($"rules", YSeq [YScalar $"A"])] ->
  let f := ConfigFile_read read (yaml_of parse) path in cf_rules f = [$"A"] /\ cf_maxP1 f = INT_MIN.
Proof. intros read parse path D f. unfold f. rewrite (document_read _ _ _ _ D). split; reflexivity. Qed.

(** ** C124 *)
(** With the file's memory still there, copying the texts gives what the other theorems
    assume. *)
Theorem c124_right_while_memory_lives : forall files s,
  processConfigFiles_refs true files s = Val (fold_left processConfigFile files s).
Proof. induction files as [|f files IH]; intros s; simpl; auto. rewrite refs_alive. apply IH. Qed.
(** It is gone: one file is defined exactly when no text in it has a character. *)
Theorem c124_defined_without_texts : forall files s,
  (forall f, In f files -> Forall (fun t => t = []) (texts_of f)) ->
  processConfigFiles_refs false files s = Val (fold_left processConfigFile files s).
Proof.
  induction files as [|f files IH]; intros s H; simpl; auto.
  rewrite refs_dead_ok by (apply H; now left). apply IH. intros g I. apply H. now right.
Qed.
Theorem c124_text_undefined : forall files f t s,
  In f files -> In t (texts_of f) -> t <> [] -> processConfigFiles_refs false files s = UB.
Proof.
  assert (K : forall s f, (forall t, In t (texts_of f) -> t = []) \/ processConfigFile_refs false s f = UB).
  { intros s f. destruct (Forall_dec (fun t : str => t = []) (fun t => list_eq_dec ascii_dec t []) (texts_of f)) as [F|F].
    - left. now apply Forall_forall.
    - right. apply neg_Forall_Exists_neg in F; [|intros t; apply list_eq_dec, ascii_dec].
      apply Exists_exists in F as (t & I & N). eapply refs_dead_ub; eauto. }
  induction files as [|g files IH]; intros f t s I J N; [destruct I|]. simpl.
  destruct (K s g) as [A|U]; [|now rewrite U].
  destruct I as [->|I]; [exfalso; auto|]. rewrite refs_dead_ok by now apply Forall_forall. simpl. eauto.
Qed.
(** Finding: reading an ordinary, well-written file is undefined. *)
Theorem c124_reading_is_defined_refuted : exists read parse e cl d,
  document read parse (project_file e) d /\ well_written d
  /\ processConfigFiles_refs false (config_files read (yaml_of parse) e) (os_initial cl) = UB.
Proof.
  exists exf_read, exf_parse, exo_env, exf_cl, exf_doc. split; [exact exf_document|]. split; [exact exf_written|].
  destruct (project_last exf_read (yaml_of exf_parse) exo_env) as (earlier & ->).
  eapply c124_text_undefined with (t := $"GotoStatement"); [apply in_app_iff; right; left; reflexivity| |discriminate].
  vm_compute. tauto.
Qed.
Example c124_case : exists f, yaml_of (fun _ => Some (YMap [($"max-priority-1", YScalar $"4"); ($"enable-global-analysis", YScalar $"true")])) [] = f
  /\ Forall (fun t => t = []) (texts_of f) /\ cf_maxP1 f = 4%Z
  /\ (exists s, processConfigFiles_refs false [f] (os_initial exf_cl) = Val s /\ enableGlobalAnalysis s = true).
Proof.
  eexists. split; [vm_compute; reflexivity|]. split; [repeat constructor|]. split; [reflexivity|].
  eexists. split; reflexivity.
Qed.

Print Assumptions c122_document_says.
Print Assumptions c122_order_irrelevant.
Print Assumptions c122_other_keys_harmless.
Print Assumptions c122_options_in_force.
Print Assumptions c122_rules_in_force.
Print Assumptions c122_threshold_in_force.
Print Assumptions c122_plain_decimal.
Print Assumptions c122_leading_zero_refuted.
Print Assumptions c123_wrong_value.
Print Assumptions c123_right_or_wrong.
Print Assumptions c123_own_key.
Print Assumptions c123_key_twice.
Print Assumptions c123_no_mapping.
Print Assumptions c123_run_goes_on.
Print Assumptions c123_costs_only_itself_refuted.
Print Assumptions c124_right_while_memory_lives.
Print Assumptions c124_defined_without_texts.
Print Assumptions c124_text_undefined.
Print Assumptions c124_reading_is_defined_refuted.
