(** * What the project's configuration file says is what the run does: C131 *)
From Verif Require Import Base BaseFacts ModelResults ModelConfig ModelFilter ModelOptions ModelConfigFile ModelMain ModelDriver
  ModelSource ModelAST ModelRules ModelRulesBasic ModelRulesConvention ModelRulesNullCheck
  ModelRulesRedundant ModelRulesVars ModelRulesObjC ModelRuleTable ModelProgram
  SpecResults SpecConfig SpecFilter SpecOptions SpecConfigFile SpecMain SpecAST SpecSource SpecExec SpecRules SpecRulesRedundant SpecRulesVars SpecDriver SpecProgram SpecCatalogue SpecSettings
  ProofResults ProofConfig ProofFilter ProofOptions ProofConfigFile ProofMain ProofRules ProofRulesVars ProofSource ProofProgram
  PropConfig PropFilter PropOptions PropConfigFile PropMain PropDriver PropRules PropRuleTable PropProgram PropCatalogue PropSettings.
From Coq Require Import Lia.
Local Arguments lit : simpl never.

(** The run has the command line [cl], with -rc arguments an int can count, and the working
    directory has a well-written file [.oclint] with the mapping [d] in it. *)
Definition project_run (w : world) (cl : cmdline) (d : list (str * ynode)) : Prop :=
  w_cmdline w = Some cl /\ Forall (fun a => (Z.of_nat (length a) <= INT_MAX)%Z) (cl_rc cl)
  /\ exists parse, w_yaml w = yaml_of parse /\ document (w_read w) parse (project_file (w_env w)) d /\ well_written d.
(** It is the only configuration file, and the command line is silent about which rules run. *)
Definition only_configuration (w : world) (cl : cmdline) : Prop :=
  (forall path, path <> project_file (w_env w) -> w_read w path = None) /\ cl_rule cl = [] /\ cl_disableRule cl = [].
(** The names listed under a key, none if the key is absent. *)
Definition lists (d : list (str * ynode)) (key : str) (names : list str) : Prop := SpecConfigFile.says d key text_list [] names.
(** The file sets a limit of priority violations to [z]. *)
Definition tolerates (d : list (str * ynode)) (key : str) (z : Z) : Prop :=
  exists t, In (key, YScalar t) d /\ numeral t z /\ z <> INT_MIN.

Lemma val_inj {A} (a b : A) : Val a = Val b -> a = b.
Proof. now intros [= ->]. Qed.
Lemma project_options w cl d s : project_run w cl d -> options_are w s ->
  exists parse, process (w_read w) (yaml_of parse) (w_env w) cl = Val s /\ w_yaml w = yaml_of parse
    /\ document (w_read w) parse (project_file (w_env w)) d /\ well_written d
    /\ Forall (fun a => (Z.of_nat (length a) <= INT_MAX)%Z) (cl_rc cl).
Proof.
  intros (C & L & parse & Y & D & W) (cl' & C' & P). rewrite C in C'. injection C' as <-. rewrite Y in P. exists parse. auto.
Qed.

(** ** Which rules run *)
Lemma selection w cl d s on off : project_run w cl d -> only_configuration w cl -> options_are w s ->
  lists d $"rules" on -> lists d $"disable-rules" off ->
  forall n, (In n (f_disabled (os_filter s)) <-> In n off) /\ (In n (f_enabled (os_filter s)) <-> In n on /\ ~ In n off).
Proof.
  intros R (O & E1 & E2) S On Off n. destruct (project_options _ _ _ _ R S) as (parse & P & Y & D & W & L).
  destruct (written_parts d W) as (N & _ & _).
  assert (Fo : forall m l, In ($"disable-rules", m) d -> text_list m l -> off = l).
  { intros m l I M. eapply said_unique; [exact texts_det|exact N|exact I|exact M|exact Off]. }
  assert (Fn : forall m l, In ($"rules", m) d -> text_list m l -> on = l).
  { intros m l I M. eapply said_unique; [exact texts_det|exact N|exact I|exact M|exact On]. }
  destruct (c122_rules_in_force _ _ _ _ _ _ n P D W) as [Ka Kb]; [rewrite E1; auto|rewrite E2; auto|].
  destruct (in_dec (list_eq_dec Ascii.ascii_dec) n off) as [I|I].
  - destruct Off as [(m & Im & Mm)|[_ ->]]; [|destruct I]. destruct (Ka _ _ Im Mm I) as [X X']. tauto.
  - destruct (in_dec (list_eq_dec Ascii.ascii_dec) n on) as [J|J].
    + destruct On as [(m & Im & Mm)|[_ ->]]; [|destruct J].
      destruct (Kb _ _ Im Mm J) as [X X']; [|tauto]. intros m' l I' M' J'. apply I. now rewrite (Fo _ _ I' M').
    + destruct (c18_unnamed_rule_neither _ _ _ _ _ n P) as [X X']; [rewrite E2; auto|rewrite E1; auto| |tauto].
      intros f Hf.
      assert (Q : f = ConfigFile_read (w_read w) (yaml_of parse) (project_file (w_env w)) \/ (cf_rules f = [] /\ cf_disableRules f = [])).
      { unfold config_files in Hf. apply in_map_iff in Hf as (p & <- & _).
        destruct (list_eq_dec Ascii.ascii_dec p (project_file (w_env w))) as [->|Np]; [now left|right].
        destruct (c16_blank_file_says_nothing (w_read w) (yaml_of parse) p) as (X & X' & _); [left; now apply O|]. auto. }
      destruct Q as [->|[-> ->]]; [|split; intros []].
      pose proof (fun k I => c122_document_says _ _ _ _ k D W I) as Sd.
      split.
      * specialize (Sd $"rules" ltac:(in_list)). inversion Sd as [X| | | | | | | | | | |].
        destruct X as [(m & Im & Mm)|[_ ->]]; [|intros []]. now rewrite <- (Fn _ _ Im Mm).
      * specialize (Sd $"disable-rules" ltac:(in_list)). inversion Sd as [|X| | | | | | | | | |].
        destruct X as [(m & Im & Mm)|[_ ->]]; [|intros []]. now rewrite <- (Fo _ _ Im Mm).
Qed.
(** A rule runs exactly when the file does not disable it and, if the file enables some rule
    without disabling it as well, enables this one. *)
Theorem c131_rules_that_run : forall w cl d s rules on off, project_run w cl d -> only_configuration w cl -> options_are w s ->
  lists d $"rules" on -> lists d $"disable-rules" off ->
  exists sel, filteredRules (w_rules w) (os_filter s) (registry rules) = Val sel
    /\ sublist_where (fun a => ~ In (ri_identifier (w_rules w a)) off
         /\ ((exists n, In n on /\ ~ In n off) -> In (ri_identifier (w_rules w a)) on)) rules sel.
Proof.
  intros w cl d s rules on off R O S On Off. rewrite filteredRules_eq. eexists. split; [reflexivity|].
  apply filter_sublist_where. intros a. pose proof (selection _ _ _ _ _ _ R O S On Off) as K.
  assert (Mem : forall l x, sset_mem l x = true <-> In x l).
  { intros l x. unfold sset_mem. rewrite existsb_exists. split; [intros (y & I & E); apply str_eqb_eq in E; now subst|].
    intros I. exists x. split; auto. apply str_eqb_refl. }
  unfold ModelFilter.f_keeps. rewrite andb_true_iff, orb_true_iff, negb_true_iff, <- not_true_iff_false, !Mem.
  destruct (K (ri_identifier (w_rules w a))) as [Kd Ke]. rewrite Kd, Ke.
  destruct (f_enabled (os_filter s)) as [|n l] eqn:E; cbn [is_nil].
  - assert (X : ~ exists n, In n on /\ ~ In n off) by (intros (n & H); apply (K n) in H; destruct H).
    split; [|tauto]. intros [_ H]. split; auto. intros Y. now destruct X.
  - assert (X : exists n, In n on /\ ~ In n off) by (exists n; apply (K n); now left).
    split; [intros [[H|H] H']; [discriminate|]; tauto|]. intros [H H']. auto.
Qed.

(** What is recorded comes from rules that ran. *)
Lemma carrier_rule k vs path a b a' b' m : Forall (fun v => v_rule v = Some k) vs ->
  Forall (fun v => v_rule v = Some k) (carrier_addViolation vs path a b a' b' (Some k) m).
Proof. intros F. unfold carrier_addViolation. destruct (negb _); auto. apply Forall_app. split; auto. Qed.
Lemma add_report_rule e k attr st r : Forall (fun v => v_rule v = Some k) (fst st) ->
  Forall (fun v => v_rule v = Some k) (fst (add_report e k attr st r)).
Proof.
  intros F. unfold add_report, addViolation_decl, addViolation_stmt.
  assert (L : forall l, Forall (fun v => v_rule v = Some k) (fst (addViolation_loc (e_unit e) l k (rp_message r) (fst st) (snd st)))).
  { intros l. unfold addViolation_loc. repeat match goal with |- context [let '(_, _) := ?p in _] => destruct p | |- context [match ?p with _ => _ end] => destruct p end;
      cbn [fst]; auto using carrier_rule. }
  destruct (isDecl _); [destruct (shouldSuppress_decl _ _ _)|destruct (shouldSuppress_stmt _ _)]; auto.
Qed.
Lemma takeoff_rule c k x st vs st' : takeoff c k x st = Val (vs, st') -> Forall (fun v => v_rule v = Some k) vs.
Proof.
  unfold takeoff. destruct (nth_error shipped_behaviours k) as [[s b]|]; [|discriminate].
  assert (A : forall (o : outcome (list nat * list report)),
    obind o (fun r => let '(vs, sc) := fold_left (add_report (cx_env x) k (sh_attributeName s)) (snd r) ([], r_cache st) in
        Val (vs, {| r_cache := sc; r_stack := fst r |})) = Val (vs, st') -> Forall (fun v => v_rule v = Some k) vs).
  { intros [r|m|]; cbn [obind]; try discriminate.
    assert (G : forall rs st0, Forall (fun v => v_rule v = Some k) (fst st0) ->
      Forall (fun v => v_rule v = Some k) (fst (fold_left (add_report (cx_env x) k (sh_attributeName s)) rs st0))).
    { induction rs as [|r0 rs IH]; intros st0 F; cbn [fold_left]; auto. apply IH. now apply add_report_rule. }
    specialize (G (snd r) ([], r_cache st) (Forall_nil _)).
    destruct (fold_left _ _ _) as [v sc]. intros [= <- _]. exact G. }
  destruct b; try (apply A).
  destruct (LongLine_apply _ _ _ _ _) as [[v sc]|m|] eqn:E; cbn [obind]; try discriminate. intros [= <- _].
  eapply long_line_rule; [|exact E]. constructor.
Qed.
Lemma recorded_rule i s sel c v : driver_of i s sel = (c, Val tt) -> In v (concat (c_collection c)) ->
  exists k, In k sel /\ v_rule v = Some k.
Proof.
  intros H Hv. unfold driver_of in H.
  destruct (ModelDriver.run _ _ _ _ _ _ _ _ _) as [c1 [st'|m|]] eqn:R; cbn [obind] in H; try discriminate. injection H as ->.
  apply run_inv in R as (frs & cwd' & all & Uc & Ur & K).
  assert (E : c_collection c = map (fun pr => recordable (concat pr)) all).
  { destruct (enableClangChecker s); [destruct K as (f2 & d2 & _ & ->); rewrite checker_collection|subst c]; reflexivity. }
  rewrite E in Hv. apply in_concat in Hv as (l & Hl & Hv). apply in_map_iff in Hl as (pr & <- & Hp).
  unfold recordable in Hv. apply filter_In in Hv as [Hv _]. apply in_concat in Hv as (l & Hl & Hv).
  clear - Ur Hp Hl Hv. induction Ur as [|x xs st row st1 rest st2 U Ur IH]; [destruct Hp|].
  destruct Hp as [->|Hp]; [|now apply IH].
  clear - U Hl Hv. induction U as [|k rules x st vs st1 rest st2 T U IH]; [destruct Hl|].
  destruct Hl as [->|Hl].
  - pose proof (takeoff_rule _ _ _ _ _ _ T) as F. rewrite Forall_forall in F. exists k. split; [now left|auto].
  - destruct (IH Hl) as (k' & I & E). exists k'. split; [now right|auto].
Qed.
(** A rule the project disables, and the command line does not mention, reports nothing. *)
Theorem c131_disabled_rule_reports_nothing : forall w i cl d s rules c off name,
  project_run (program w i) cl d -> options_are (program w i) s -> analysed (program w i) s rules c ->
  lists d $"disable-rules" off -> In name off -> ~ In name (cl_rule cl) ->
  forall v, In v (concat (c_collection c)) -> exists k, v_rule v = Some k /\ ri_identifier (shipped_env k) <> name.
Proof.
  intros w i cl d s rules c off name R S A Off I C1 v Hv.
  destruct (program_analysed _ _ _ _ _ S A) as (sel & Hs & Hd).
  destruct (recorded_rule _ _ _ _ _ Hd Hv) as (k & Ik & Ek). exists k. split; auto. intros En.
  destruct (project_options _ _ _ _ R S) as (parse & P & _ & D & W & _).
  assert (X : In name (f_disabled (os_filter s))).
  { destruct (in_dec (list_eq_dec Ascii.ascii_dec) name (cl_disableRule cl)) as [J|J].
    - now apply (c18_command_line_decides _ _ _ _ _ name P).
    - destruct (c122_rules_in_force _ _ _ _ _ _ name P D W C1 J) as [Ka _].
      destruct Off as [(m & Im & Mm)|[_ ->]]; [|destruct I]. now apply (Ka _ _ Im Mm). }
  rewrite filteredRules_eq in Hs. apply val_inj in Hs. subst sel. apply filter_In in Ik as [_ Ik].
  unfold ModelFilter.f_keeps in Ik. apply andb_true_iff in Ik as [_ Ik]. apply negb_true_iff in Ik. unfold sset_mem in Ik.
  assert (Y : existsb (fun y => str_eqb y (ri_identifier (shipped_env k))) (f_disabled (os_filter s)) = true).
  { apply existsb_exists. exists name. split; auto. rewrite En. apply str_eqb_refl. }
  change (w_rules (program w i)) with shipped_env in Ik. congruence.
Qed.
(** With the file as the only configuration and rules enabled in it, only those report. *)
Theorem c131_only_enabled_rules_report : forall w i cl d s rules c on off name,
  project_run (program w i) cl d -> only_configuration (program w i) cl -> options_are (program w i) s ->
  analysed (program w i) s rules c -> lists d $"rules" on -> lists d $"disable-rules" off -> In name on -> ~ In name off ->
  forall v, In v (concat (c_collection c)) -> exists k, v_rule v = Some k
    /\ In (ri_identifier (shipped_env k)) on /\ ~ In (ri_identifier (shipped_env k)) off.
Proof.
  intros w i cl d s rules c on off name R O S A On Off I J v Hv.
  destruct (program_analysed _ _ _ _ _ S A) as (sel & Hs & Hd).
  destruct (recorded_rule _ _ _ _ _ Hd Hv) as (k & Ik & Ek). exists k. split; auto.
  destruct (c131_rules_that_run _ _ _ _ rules _ _ R O S On Off) as (sel' & Hs' & Sw).
  change (w_rules (program w i)) with shipped_env in *. assert (sel' = sel) as -> by congruence.
  assert (K : ~ In (ri_identifier (shipped_env k)) off /\ ((exists n, In n on /\ ~ In n off) -> In (ri_identifier (shipped_env k)) on)).
  { clear - Sw Ik. induction Sw as [|a l t Pa Sw IH|a l t Pa Sw IH]; [destruct Ik| |auto]. destruct Ik as [->|Ik]; auto. }
  destruct K as [K1 K2]. split; auto. apply K2. eauto.
Qed.

(** ** The limits a rule compares with *)
Theorem c131_setting_given : forall w cl d n kvs k v default, project_run w cl d ->
  (forall rc, Forall2 rc_setting (cl_rc cl) rc -> ~ sets rc k) ->
  In ($"rule-configurations", n) d -> pair_list n kvs -> last_setting kvs k v ->
  given (w_read w) (w_yaml w) (w_env w) cl k default v.
Proof.
  intros w cl d n kvs k v default (C & L & parse & Y & D & W) N I M K. rewrite Y.
  destruct (c16_processing_never_raises (w_read w) (yaml_of parse) (w_env w) cl L) as [s P].
  apply (c118_text_in_force _ _ _ _ _ _ _ _ P L). unfold in_force. eapply c122_threshold_in_force; eauto.
Qed.

(** ** The verdict *)
Lemma project_limits w cl d s p1 p2 p3 : project_run w cl d -> options_are w s ->
  tolerates d $"max-priority-1" p1 -> tolerates d $"max-priority-2" p2 -> tolerates d $"max-priority-3" p3 ->
  cl_maxP1 cl = None -> cl_maxP2 cl = None -> cl_maxP3 cl = None -> maxP1 s = p1 /\ maxP2 s = p2 /\ maxP3 s = p3.
Proof.
  intros R S (t1 & I1 & D1 & N1) (t2 & I2 & D2 & N2) (t3 & I3 & D3 & N3) C1 C2 C3.
  destruct (project_options _ _ _ _ R S) as (parse & P & _ & D & W & _).
  destruct (c122_options_in_force _ _ _ _ _ _ P D W) as (K1 & K2 & K3 & _). split; [exact (K1 _ _ I1 D1 N1 C1)|split; [exact (K2 _ _ I2 D2 N2 C2)|exact (K3 _ _ I3 D3 N3 C3)]].
Qed.
(** With the three limits from the file and duplicates counted once, a run that gets as far as
    its verdict succeeds exactly when no priority has more distinct violations than the file
    tolerates. *)
Theorem c131_verdict : forall w cl d ev n p1 p2 p3 flag,
  project_run w cl d -> main w = (ev, Exit n) -> (n = 0 \/ n = 5)%Z ->
  tolerates d $"max-priority-1" p1 -> tolerates d $"max-priority-2" p2 -> tolerates d $"max-priority-3" p3 ->
  cl_maxP1 cl = None -> cl_maxP2 cl = None -> cl_maxP3 cl = None ->
  In ($"allow-duplicated-violations", flag) d -> one_flag flag TFalse -> cl_duplications cl = None ->
  exists s rules c, options_are w s /\ rules_loaded w s rules /\ analysed w s rules c /\ c_errors c = []
    /\ forall distinct, one_copy_each (concat (c_collection c)) distinct ->
       (n = 0%Z <-> (count_priority w 1 distinct <= p1 /\ count_priority w 2 distinct <= p2 /\ count_priority w 3 distinct <= p3)%Z).
Proof.
  intros w cl d ev n p1 p2 p3 flag R M Hn T1 T2 T3 C1 C2 C3 If Of Cd. pose proof (c23_exit_code_table _ _ _ M) as X.
  assert (Q : exists s rules r c text, options_are w s /\ rules_loaded w s rules /\ reporter_found w s r /\ analysed w s rules c
     /\ reported w s r c text /\ no_compile_error c /\ (n = 0%Z <-> within_limits w s c)).
  { destruct X; try (exfalso; destruct Hn as [Hn|Hn]; discriminate Hn); exists s, rules, r, c, text; repeat (split; [assumption|]);
      split; auto; try tauto; discriminate. }
  destruct Q as (s & rules & r & c & text & S & L & _ & A & _ & E & V). exists s, rules, c. repeat (split; [assumption|]).
  destruct (project_limits _ _ _ _ _ _ _ R S T1 T2 T3 C1 C2 C3) as (E1 & E2 & E3).
  assert (Du : allowDuplicatedViolations s = false).
  { destruct (project_options _ _ _ _ R S) as (parse & P & _ & D & W & _).
    destruct (c122_options_in_force _ _ _ _ _ _ P D W) as (_ & _ & _ & _ & _ & _ & _ & K). specialize (K _ _ If Of Cd).
    destruct (allowDuplicatedViolations s); auto. destruct K as [K _]. specialize (K eq_refl). discriminate. }
  intros l Hl. rewrite V. unfold within_limits, shows. rewrite Du, E1, E2, E3. split.
  - intros H. now apply H.
  - intros H l' Hl'. cbn [collected_list] in Hl'. now rewrite (one_copy_each_unique _ _ _ Hl' Hl).
Qed.

(** ** The report *)
(** Format and destination come from the file. *)
Theorem c131_report : forall w cl d ev n type out,
  project_run w cl d -> main w = (ev, Exit n) -> (n = 0 \/ n = 5 \/ n = 6)%Z ->
  In ($"report-type", YScalar type) d -> type <> [] -> cl_reportType cl = None ->
  In ($"output", YScalar out) d -> out <> [] -> cl_output cl = None ->
  exists s rules r c text, options_are w s /\ analysed w s rules c /\ reporter_found w s r /\ rp_name r = type
    /\ session (shows (allowDuplicatedViolations s) c) (rp_report r c) (Val text)
    /\ (out = $"-" -> In (EOut text) ev)
    /\ (forall rest, out = "/"%char :: rest -> In (EFile out (firstn (w_accepts w out) text)) ev)
    /\ (forall ch rest, out = ch :: rest -> ch <> "/"%char -> out <> $"-" ->
        let path := workingPath (w_env w) ++ "/"%char :: out in In (EFile path (firstn (w_accepts w path) text)) ev).
Proof.
  intros w cl d ev n type out R M Hn It Nt Ct Io No Co.
  pose proof (c28_events_of_every_run _ _ _ M) as T.
  destruct T as [|n mm Hx|sel m|sel pre m|n sel s rules r c text e post _ S L Rf A Hs Rp Re _]; try (exfalso; lia).
  destruct (project_options _ _ _ _ R S) as (parse & P & _ & D & W & _).
  destruct (c122_options_in_force _ _ _ _ _ _ P D W) as (_ & _ & _ & Ko & Kt & _).
  specialize (Ko _ Io No Co). specialize (Kt _ It Nt Ct).
  exists s, rules, r, c, text. split; auto. split; auto. split; auto. split.
  { destruct Rf as (es & vs & _ & _ & Pk). rewrite <- Kt. clear - Pk. induction Pk; auto. }
  split; [apply Rp|].
  assert (Ie : In e (listing w sel ++ EAnalyze sel :: e :: post)) by (apply in_app_iff; right; right; now left).
  unfold report_event in Re. rewrite Ko in Re. pose proof (c21_report_destination (w_env w) s) as Ds. cbn zeta in Ds. rewrite Ko in Ds.
  destruct Ds as (_ & Ds1 & Ds2 & _). split; [|split].
  - intros ->. destruct Re as [[_ ->]|[Re _]]; [exact Ie|congruence].
  - intros rest ->. destruct Re as [[Re _]|[_ (path & Hp & ->)]]; [discriminate|].
    rewrite (Ds1 rest eq_refl) in Hp. apply val_inj in Hp. subst path. exact Ie.
  - intros ch rest E Nc Nd. destruct Re as [[Re _]|[_ (path & Hp & ->)]]; [congruence|].
    rewrite (Ds2 ch rest E Nc) in Hp. apply val_inj in Hp. subst path. exact Ie.
Qed.

(** ** A green run under the project's own rules *)
(** The file tolerates no violation of any priority and sets a limit of a size rule: exit 0
    means that nothing unhidden is larger. *)
Theorem c131_green_project : forall w i ev cl d s rules sel xs,
  project_run (program w i) cl d -> main (program w i) = (ev, Exit 0) -> options_are (program w i) s ->
  tolerates d $"max-priority-1" 0 -> tolerates d $"max-priority-2" 0 -> tolerates d $"max-priority-3" 0 ->
  cl_maxP1 cl = None -> cl_maxP2 cl = None -> cl_maxP3 cl = None ->
  rules_loaded (program w i) s rules -> NoDup rules ->
  filteredRules shipped_env (os_filter s) (registry rules) = Val sel -> compiled i xs -> separate xs ->
  forall x kd nd kvs text T decls dc n m a b, In x xs -> well_formed x -> In (size_index kd) sel ->
  (forall rc, Forall2 rc_setting (cl_rc cl) rc -> ~ sets rc (size_key kd)) ->
  In ($"rule-configurations", nd) d -> pair_list nd kvs -> last_setting kvs (size_key kd) text ->
  reads_as text T -> in_int T -> (kd = SParameters -> 0 <= T)%Z ->
  examined x (size_shipped kd) decls -> In dc decls -> below dc n -> measured kd n m a b ->
  (m <= T)%Z \/ ~ recorded (cx_env x) (sh_attributeName (size_shipped kd)) (Report n (a ++ show_Z m ++ b ++ $" exceeds limit of " ++ show_Z T)).
Proof.
  intros w i ev cl d s rules sel xs R M S T1 T2 T3 C1 C2 C3 L Nd Hs Hx Sp x kd nd kvs text T decls dc n m a b Ix Wf Ik Nr In_ Pl Ls Ra It Pz Ex Id Bl Ms.
  destruct (project_limits _ _ _ _ _ _ _ R S T1 T2 T3 C1 C2 C3) as (E1 & E2 & E3).
  pose proof R as (C & _). destruct S as (cl' & C' & P). rewrite C in C'. injection C' as <-.
  eapply (c118_green_run_respects_limits w i ev cl s rules sel xs M C P E1 E2 E3 L Nd Hs Hx Sp); eauto.
  exact (c131_setting_given _ _ _ _ _ _ _ _ R Nr In_ Pl Ls).
Qed.

(** ** A project *)
Definition exp_doc (limit : str) (off : list str) : list (str * ynode) :=
  [($"max-priority-1", YScalar $"0"); ($"max-priority-2", YScalar $"0"); ($"max-priority-3", YScalar $"0");
   ($"rules", YSeq (map YScalar [$"LongMethod"; $"GotoStatement"]));
   ($"disable-rules", YSeq (map YScalar off));
   ($"rule-configurations", YSeq [YMap [($"key", YScalar $"LONG_METHOD"); ($"value", YScalar limit)]]);
   ($"allow-duplicated-violations", YScalar $"false");
   ($"report-type", YScalar $"text"); ($"output", YScalar $"r.txt")].
Definition exp_world (limit : str) (off : list str) : world :=
  let w := with_cmdline (ex_world [10; 63; 52]) exm_cl in
  {| w_list := w_list w; w_rulelib := w_rulelib w; w_replib := w_replib w;
     w_read := fun p => if str_eqb p $"/w/.oclint" then Some $"x" else None;
     w_yaml := yaml_of (fun _ => Some (YMap (exp_doc limit off)));
     w_env := w_env w; w_cmdline := w_cmdline w; w_listRules := w_listRules w; w_canOpen := w_canOpen w; w_accepts := fun _ => 9;
     w_rules := w_rules w; w_driver := w_driver w; w_hash := w_hash w |}.
Definition exp_run (limit : str) (off : list str) : world := program (exp_world limit off) (ex_inputs ex_x ex_y).
Lemma exp_written limit off : well_written (exp_doc limit off).
Proof.
  split.
  - constructor.
    + apply (NoDup_count_occ' (list_eq_dec Ascii.ascii_dec)). intros x Hx. vm_compute in Hx.
      repeat (destruct Hx as [<-|Hx]; [vm_compute; reflexivity|]). destruct Hx.
    + repeat (apply Forall_cons || apply Forall_nil); cbn [snd]; try constructor.
      * repeat constructor.
      * apply Forall_forall. intros n I. apply in_map_iff in I as (t & <- & _). constructor.
      * repeat (apply Forall_cons || apply Forall_nil || constructor); cbn [map fst snd]; try (constructor; fail).
        -- intros [E|[]]. discriminate E.
        -- intros [].
  - unfold all_shaped. repeat split; intros k _ I n J.
    + destruct I as [<-|[<-|[<-|[]]]]; repeat (destruct J as [J|J]; [first [discriminate J | injection J as <-]|]); try destruct J.
      * exists [$"LongMethod"; $"GotoStatement"]. apply (tl_items [$"LongMethod"; $"GotoStatement"]).
      * exists off. constructor.
    + destruct I as [<-|[]]. repeat (destruct J as [J|J]; [first [discriminate J | injection J as <-]|]); try destruct J.
      exists [($"LONG_METHOD", limit)]. constructor. constructor; [|constructor]. right. eexists.
      split; [reflexivity|split; [repeat constructor; simpl; intuition discriminate|split; [simpl; intuition auto|]]].
      split; left; eexists; (split; [simpl; auto|constructor]).
    + destruct I as [<-|[<-|[]]]; repeat (destruct J as [J|J]; [first [discriminate J | injection J as <-]|]); try destruct J; eexists; constructor.
    + destruct I as [<-|[<-|[<-|[]]]]; repeat (destruct J as [J|J]; [first [discriminate J | injection J as <-]|]); try destruct J;
        (exists 0%Z; constructor; [apply decimal_numeral; constructor|vm_compute; split; discriminate]).
    + destruct I as [<-|[<-|[<-|[]]]]; repeat (destruct J as [J|J]; [first [discriminate J | injection J as <-]|]); try destruct J; eexists; constructor.
Qed.
Lemma exp_project limit off : project_run (exp_run limit off) exm_cl (exp_doc limit off).
Proof.
  split; [reflexivity|]. split; [constructor|]. eexists. split; [reflexivity|]. split; [|apply exp_written].
  exists $"x". split; [reflexivity|]. split; [exists "x"%char; split; [left|]; reflexivity|reflexivity].
Qed.
Ltac here := repeat first [left; reflexivity | right].
(** The method of 60 lines and the goto: exit 0 at 60 with the goto rule disabled, 5 at 59, 5
    with the goto rule, which the report then counts. *)
Example c131_case :
  project_run (exp_run $"60" [$"GotoStatement"]) exm_cl (exp_doc $"60" [$"GotoStatement"])
  /\ only_configuration (exp_run $"60" [$"GotoStatement"]) exm_cl
  /\ lists (exp_doc $"60" [$"GotoStatement"]) $"rules" [$"LongMethod"; $"GotoStatement"]
  /\ lists (exp_doc $"60" [$"GotoStatement"]) $"disable-rules" [$"GotoStatement"]
  /\ tolerates (exp_doc $"60" [$"GotoStatement"]) $"max-priority-1" 0
  /\ tolerates (exp_doc $"60" [$"GotoStatement"]) $"max-priority-2" 0
  /\ tolerates (exp_doc $"60" [$"GotoStatement"]) $"max-priority-3" 0
  /\ one_flag (YScalar $"false") TFalse
  /\ main (exp_run $"60" [$"GotoStatement"]) = ([EAnalyze [63]; EFile $"/w/r.txt" []], Exit 0)
  /\ (exists post, main (exp_run $"59" [$"GotoStatement"]) = (EAnalyze [63] :: EFile $"/w/r.txt" $"vv" :: post, Exit 5))
  /\ (exists post, main (exp_run $"59" []) = (EAnalyze [10; 63] :: EFile $"/w/r.txt" $"vvv" :: post, Exit 5))
  (* the only enabled rules disabled: everything else runs *)
  /\ (exists post, main (exp_run $"59" [$"GotoStatement"; $"LongMethod"]) = (EAnalyze [52] :: post, Exit 5))
  /\ last_setting [($"LONG_METHOD", $"60")] (size_key SMethodLines) $"60"
  /\ (forall rc, Forall2 rc_setting (cl_rc exm_cl) rc -> ~ sets rc (size_key SMethodLines)) /\ size_index SMethodLines = 63.
Proof.
  split; [apply exp_project|]. split; [|split; [|split]].
  - split; [|split; reflexivity]. intros p Hp. cbn [w_read exp_run program exp_world].
    destruct (str_eqb p $"/w/.oclint") eqn:E; auto. apply str_eqb_eq in E. subst. exfalso. apply Hp. vm_compute. reflexivity.
  - left. eexists. split; [here|apply (tl_items [$"LongMethod"; $"GotoStatement"])].
  - left. eexists. split; [here|]. apply (tl_items [$"GotoStatement"]).
  - split; [|split; [|split]]; try (exists $"0"; split; [here|]; split; [apply decimal_numeral; constructor|discriminate]).
    split; [constructor|]. split; [vm_compute; reflexivity|]. split; [eexists; vm_compute; reflexivity|].
    split; [eexists; vm_compute; reflexivity|]. split; [eexists; vm_compute; reflexivity|].
    split; [exists [], []; split; auto|]. split; [|reflexivity]. intros rc F. inversion F; subst. intros [v []].
Qed.
(** Finding: a file that enables rules and disables those same rules runs all the others. *)
Theorem c131_enabling_restricts_refuted : exists w i cl d on ev n sel k,
  project_run (program w i) cl d /\ only_configuration (program w i) cl /\ lists d $"rules" on /\ on <> []
  /\ main (program w i) = (ev, Exit n) /\ In (EAnalyze sel) ev /\ In k sel /\ ~ In (ri_identifier (shipped_env k)) on.
Proof.
  set (off := [$"GotoStatement"; $"LongMethod"]).
  assert (M : exists post, main (exp_run $"59" off) = (EAnalyze [52] :: post, Exit 5)) by (eexists; vm_compute; reflexivity).
  destruct M as [post M].
  exists (exp_world $"59" off), (ex_inputs ex_x ex_y), exm_cl, (exp_doc $"59" off), [$"LongMethod"; $"GotoStatement"], (EAnalyze [52] :: post), 5%Z, [52], 52.
  split; [apply exp_project|]. split; [|split; [|split; [discriminate|split; [exact M|]]]].
  - split; [|split; reflexivity]. intros p Hp. cbn [w_read program exp_world].
    destruct (str_eqb p $"/w/.oclint") eqn:E; auto. apply str_eqb_eq in E. subst. exfalso. apply Hp. vm_compute. reflexivity.
  - left. eexists. split; [here|apply (tl_items [$"LongMethod"; $"GotoStatement"])].
  - split; [now left|]. split; [now left|]. vm_compute. intuition discriminate.
Qed.
Print Assumptions c131_enabling_restricts_refuted.
Print Assumptions c131_rules_that_run.
Print Assumptions c131_disabled_rule_reports_nothing.
Print Assumptions c131_only_enabled_rules_report.
Print Assumptions c131_setting_given.
Print Assumptions c131_verdict.
Print Assumptions c131_report.
Print Assumptions c131_green_project.
