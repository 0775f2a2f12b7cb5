(** * Properties C16-C22: options *)
From Verif Require Import Base BaseFacts ModelResults ModelConfig ModelFilter ModelOptions
  SpecConfig SpecFilter SpecOptions ProofConfig ProofFilter ProofOptions.

(** Concrete data. *)
Definition exo_cl : cmdline :=
  {| cl_output := None; cl_reportType := Some $"pmd"; cl_R := [$"r1"];
     cl_rc := [$"LONG_LINE=80"; $"A=B=5"]; cl_rule := [$"X"]; cl_disableRule := [$"Y"];
     cl_maxP1 := None; cl_maxP2 := Some 3%Z; cl_maxP3 := None; cl_globalAnalysis := None;
     cl_clangChecker := None; cl_duplications := None |}.
Definition exo_env : penv := {| en_cwd := Some $"/w"; en_home := Some $"/h"; en_bin := $"/b" |}.
Definition exo_home : configfile :=
  {| cf_rules := [$"Y"]; cf_disableRules := [$"X"; $"Z"]; cf_rulePaths := [$"r2"];
     cf_ruleConfigurations := [($"LONG_LINE", $"90"); ($"K", $"1"); ($"K", $"2")];
     cf_output := $"out.txt"; cf_reportType := $"html"; cf_maxP1 := 4; cf_maxP2 := 4; cf_maxP3 := INT_MIN;
     cf_clangChecker := TTrue; cf_allowDuplicatedViolations := TUndefined;
     cf_enableGlobalAnalysis := TFalse |}.
Definition exo_read (p : str) : option str :=
  if str_eqb p $"/h/.oclint" then Some $"x" else None.
Definition exo_yaml (_ : str) : configfile := exo_home.

(** ** C16 *)
Theorem c16_option_precedence : forall read yaml e cl s,
  process read yaml e cl = Val s ->
  let files := config_files read yaml e in
  effective (cl_output cl) (map (fun f => says_text (cf_output f)) files) $"-" (o_value (argOutput s))
  /\ effective (cl_reportType cl) (map (fun f => says_text (cf_reportType f)) files) $"text" (reportType s)
  /\ effective (cl_maxP1 cl) (map (fun f => says_int (cf_maxP1 f)) files) 0%Z (maxP1 s)
  /\ effective (cl_maxP2 cl) (map (fun f => says_int (cf_maxP2 f)) files) 10%Z (maxP2 s)
  /\ effective (cl_maxP3 cl) (map (fun f => says_int (cf_maxP3 f)) files) 20%Z (maxP3 s)
  /\ effective (cl_globalAnalysis cl)
       (map (fun f => says_bool (cf_enableGlobalAnalysis f)) files) false (enableGlobalAnalysis s)
  /\ effective (cl_clangChecker cl)
       (map (fun f => says_bool (cf_clangChecker f)) files) false (enableClangChecker s)
  /\ effective (cl_duplications cl)
       (map (fun f => says_bool (cf_allowDuplicatedViolations f)) files) false
       (allowDuplicatedViolations s).
Proof.
  intros read yaml e cl s H files.
  pose proof (prec_output _ _ _ _ _ H). pose proof (prec_reportType _ _ _ _ _ H).
  pose proof (prec_maxP1 _ _ _ _ _ H). pose proof (prec_maxP2 _ _ _ _ _ H).
  pose proof (prec_maxP3 _ _ _ _ _ H). pose proof (prec_global _ _ _ _ _ H).
  pose proof (prec_checker _ _ _ _ _ H). pose proof (prec_dup _ _ _ _ _ H). tauto.
Qed.

(** Options are processed without error for every command line whose -rc arguments are
    shorter than 2 GiB. *)
Theorem c16_processing_never_raises : forall read yaml e cl,
  Forall (fun a => (Z.of_nat (length a) <= INT_MAX)%Z) (cl_rc cl) ->
  exists s, process read yaml e cl = Val s.
Proof. exact process_total. Qed.

(** A missing, unreadable or blank configuration file is the same as a file that says
    nothing. *)
Theorem c16_blank_file_says_nothing : forall read yaml path,
  (read path = None \/ exists t, read path = Some t /\ Forall (fun c => isspace c = true) t) ->
  let f := ConfigFile_read read yaml path in
  cf_rules f = [] /\ cf_disableRules f = [] /\ cf_rulePaths f = [] /\ cf_ruleConfigurations f = []
  /\ says_text (cf_output f) = None /\ says_text (cf_reportType f) = None
  /\ says_int (cf_maxP1 f) = None /\ says_int (cf_maxP2 f) = None /\ says_int (cf_maxP3 f) = None
  /\ says_bool (cf_clangChecker f) = None /\ says_bool (cf_allowDuplicatedViolations f) = None
  /\ says_bool (cf_enableGlobalAnalysis f) = None.
Proof.
  intros read yaml path H f.
  assert (f = cf_initial) as ->.
  { unfold f, ConfigFile_read. destruct H as [->|(t & -> & Ht)]; auto.
    replace (forallb config_blank t) with true; auto. symmetry. apply forallb_forall.
    rewrite Forall_forall in Ht. intros c Hc. specialize (Ht c Hc).
    destruct c as [[] [] [] [] [] [] [] []]; (reflexivity || discriminate). }
  repeat split.
Qed.

Example c16_case : exists s, process exo_read exo_yaml exo_env exo_cl = Val s
  /\ o_value (argOutput s) = $"out.txt" /\ reportType s = $"pmd" /\ maxP1 s = 4%Z
  /\ maxP2 s = 3%Z /\ maxP3 s = 20%Z /\ enableClangChecker s = true
  /\ allowDuplicatedViolations s = false
  /\ length (config_files exo_read exo_yaml exo_env) = 3.
Proof. eexists. split; [vm_compute; reflexivity|]. vm_compute. repeat split. Qed.

(** ** C17.  [kvs] are the settings of the -rc arguments. *)
Theorem c17_command_line_setting_wins : forall read yaml e cl s k v d,
  process read yaml e cl = Val s ->
  Forall (fun a => (Z.of_nat (length a) <= INT_MAX)%Z) (cl_rc cl) ->
  forall kvs, Forall2 rc_setting (cl_rc cl) kvs -> last_setting kvs k v ->
  stringForKey (os_cfg s) k d = Val (v, os_cfg s).
Proof.
  intros read yaml e cl s k v d H Hl kvs F L.
  destruct (process_inv _ _ _ _ _ H) as (c & Hc & ->). cbn.
  destruct (processRC_fold _ _ _ Hc Hl) as (kvs' & F' & ->).
  assert (kvs' = kvs) as ->.
  { clear -F F'. revert kvs' F'. induction F; intros kvs' F'; inversion F'; subst; auto.
    f_equal; auto. eapply rc_setting_det; eauto. }
  rewrite stringForKey_get. destruct (fold_add_get kvs (os_cfg (fold_left processConfigFile (config_files read yaml e) (os_initial cl))) k) as [G _].
  now rewrite (G v L).
Qed.

Theorem c17_last_file_setting_wins : forall read yaml e cl s k v d,
  process read yaml e cl = Val s ->
  Forall (fun a => (Z.of_nat (length a) <= INT_MAX)%Z) (cl_rc cl) ->
  (forall kvs, Forall2 rc_setting (cl_rc cl) kvs -> ~ sets kvs k) ->
  forall earlier f later, config_files read yaml e = earlier ++ f :: later ->
  (forall f', In f' later -> ~ sets (cf_ruleConfigurations f') k) ->
  last_setting (cf_ruleConfigurations f) k v ->
  stringForKey (os_cfg s) k d = Val (v, os_cfg s).
Proof.
  intros read yaml e cl s k v d H Hl Hns earlier f later Hf Hlater L.
  destruct (process_inv _ _ _ _ _ H) as (c & Hc & ->). cbn.
  destruct (processRC_fold _ _ _ Hc Hl) as (kvs & F & ->).
  rewrite stringForKey_get.
  match goal with |- context [fold_left ?g kvs ?c0] =>
    destruct (fold_add_get kvs c0 k) as [_ G] end.
  rewrite (G (Hns kvs F)). rewrite files_cfg, Hf, concat_map_app. cbn [map concat].
  match goal with |- context [fold_left ?g ?l ?c0] =>
    destruct (fold_add_get l c0 k) as [G2 _] end.
  rewrite (G2 v); auto.
  destruct L as (a & b & E & Hb).
  exists (concat (map cf_ruleConfigurations earlier) ++ a),
         (b ++ concat (map cf_ruleConfigurations later)).
  rewrite E, <- !app_assoc. split; [reflexivity|].
  intros v' Hv'. apply in_app_iff in Hv' as [Hv'|Hv']; [eapply Hb; eauto|].
  apply in_concat in Hv' as (l & Hl' & Hv'). apply in_map_iff in Hl' as (f' & <- & Hf').
  apply (Hlater f' Hf'). now exists v'.
Qed.

Theorem c17_default_when_never_set : forall read yaml e cl s k d,
  process read yaml e cl = Val s ->
  Forall (fun a => (Z.of_nat (length a) <= INT_MAX)%Z) (cl_rc cl) ->
  (forall kvs, Forall2 rc_setting (cl_rc cl) kvs -> ~ sets kvs k) ->
  (forall f, In f (config_files read yaml e) -> ~ sets (cf_ruleConfigurations f) k) ->
  stringForKey (os_cfg s) k d = Val (d, os_cfg s).
Proof.
  intros read yaml e cl s k d H Hl Hns Hf.
  destruct (process_inv _ _ _ _ _ H) as (c & Hc & ->). cbn.
  destruct (processRC_fold _ _ _ Hc Hl) as (kvs & F & ->).
  rewrite stringForKey_get.
  match goal with |- context [fold_left ?g kvs ?c0] =>
    destruct (fold_add_get kvs c0 k) as [_ G] end.
  rewrite (G (Hns kvs F)). rewrite files_cfg.
  match goal with |- context [fold_left ?g ?l ?c0] =>
    destruct (fold_add_get l c0 k) as [_ G2] end.
  rewrite G2; auto. intros [v Hv]. apply in_concat in Hv as (l & Hl' & Hv).
  apply in_map_iff in Hl' as (f & <- & Hf'). apply (Hf f Hf'). now exists v.
Qed.

Example c17_case : exists s, process exo_read exo_yaml exo_env exo_cl = Val s
  /\ stringForKey (os_cfg s) $"LONG_LINE" [] = Val ($"80", os_cfg s)
  /\ stringForKey (os_cfg s) $"K" [] = Val ($"2", os_cfg s)
  /\ stringForKey (os_cfg s) $"A=B" [] = Val ($"5", os_cfg s)
  /\ stringForKey (os_cfg s) $"Q" $"d" = Val ($"d", os_cfg s).
Proof. eexists. split; [vm_compute; reflexivity|]. vm_compute. repeat split. Qed.

(** ** C18 *)
Theorem c18_command_line_decides : forall read yaml e cl s n,
  process read yaml e cl = Val s ->
  (In n (cl_disableRule cl) -> In n (f_disabled (os_filter s)) /\ ~ In n (f_enabled (os_filter s)))
  /\ (In n (cl_rule cl) -> ~ In n (cl_disableRule cl) ->
      In n (f_enabled (os_filter s)) /\ ~ In n (f_disabled (os_filter s))).
Proof.
  intros read yaml e cl s n H. rewrite (filter_requests _ _ _ _ _ H).
  set (reqs := _ ++ _ ++ _).
  destruct (after_requests_sets reqs n) as [A1 A2]. split.
  - intros Hn. assert (U : unwanted reqs n) by now apply block_disabled.
    split; [now apply A2|]. intros Hw. apply A1 in Hw. eapply wanted_unwanted_excl; eauto.
  - intros Hn Hd. assert (W : wanted reqs n) by now apply block_enabled.
    split; [now apply A1|]. intros Hu. apply A2 in Hu. eapply wanted_unwanted_excl; eauto.
Qed.

Theorem c18_last_file_decides : forall read yaml e cl s n earlier f later,
  process read yaml e cl = Val s ->
  ~ In n (cl_disableRule cl) -> ~ In n (cl_rule cl) ->
  config_files read yaml e = earlier ++ f :: later ->
  (forall f', In f' later -> ~ In n (cf_rules f') /\ ~ In n (cf_disableRules f')) ->
  (In n (cf_disableRules f) ->
     In n (f_disabled (os_filter s)) /\ ~ In n (f_enabled (os_filter s)))
  /\ (In n (cf_rules f) -> ~ In n (cf_disableRules f) ->
     In n (f_enabled (os_filter s)) /\ ~ In n (f_disabled (os_filter s))).
Proof.
  intros read yaml e cl s n earlier f later H Hd He Hf Hlater.
  rewrite (filter_requests _ _ _ _ _ H), Hf, concat_map_app. cbn [map concat].
  set (pre := concat (map file_requests earlier)).
  set (post := concat (map file_requests later)).
  set (reqs := _ ++ map Enable (cl_rule cl) ++ _).
  assert (R : forall r, req_name r = n -> is_last reqs r <-> is_last (pre ++ file_requests f) r).
  { intros r Hr. unfold reqs. rewrite (block_other _ _ _ n r Hr He Hd), app_assoc, is_last_app.
    split.
    - intros [Hl|[_ Hl]]; auto. apply is_last_in in Hl. exfalso.
      exact (files_unnamed later n r Hr Hlater r Hl eq_refl).
    - intros Hl. right. split; auto. eapply files_unnamed; eauto. }
  destruct (after_requests_sets reqs n) as [A1 A2]. unfold wanted, unwanted in *.
  unfold file_requests in R. split.
  - intros Hn. assert (U : is_last reqs (Disable n)) by (apply R; auto; now apply block_disabled).
    split; [now apply A2|]. intros Hw. apply A1 in Hw. eapply wanted_unwanted_excl; eauto.
  - intros Hn Hdn. assert (W : is_last reqs (Enable n)) by (apply R; auto; now apply block_enabled).
    split; [now apply A1|]. intros Hu. apply A2 in Hu. eapply wanted_unwanted_excl; eauto.
Qed.

Theorem c18_unnamed_rule_neither : forall read yaml e cl s n,
  process read yaml e cl = Val s ->
  ~ In n (cl_disableRule cl) -> ~ In n (cl_rule cl) ->
  (forall f, In f (config_files read yaml e) -> ~ In n (cf_rules f) /\ ~ In n (cf_disableRules f)) ->
  ~ In n (f_enabled (os_filter s)) /\ ~ In n (f_disabled (os_filter s)).
Proof.
  intros read yaml e cl s n H Hd He Hf. rewrite (filter_requests _ _ _ _ _ H).
  set (reqs := _ ++ _ ++ _). destruct (after_requests_sets reqs n) as [A1 A2].
  assert (R : forall r, req_name r = n -> ~ is_last reqs r).
  { intros r Hr Hl. unfold reqs in Hl. apply (proj1 (block_other _ _ _ n r Hr He Hd)) in Hl.
    apply is_last_in in Hl. exact (files_unnamed _ n r Hr Hf r Hl eq_refl). }
  rewrite A1, A2. split; apply R; reflexivity.
Qed.

Example c18_case : exists s, process exo_read exo_yaml exo_env exo_cl = Val s
  /\ In $"X" (f_enabled (os_filter s)) /\ In $"Y" (f_disabled (os_filter s))
  /\ In $"Z" (f_disabled (os_filter s)).
Proof. eexists. split; [vm_compute; reflexivity|]. vm_compute. tauto. Qed.

(** ** C19 *)
Theorem c19_split_at_last_equals : forall k v,
  (Z.of_nat (length (k ++ "="%char :: v)) <= INT_MAX)%Z -> ~ In "="%char v ->
  splitRuleConfiguration (k ++ "="%char :: v) = Val (k, v).
Proof. exact split_rc_eq. Qed.

Theorem c19_no_equals_sets_whole : forall a,
  (Z.of_nat (length a) <= INT_MAX)%Z -> ~ In "="%char a ->
  splitRuleConfiguration a = Val (a, a).
Proof. exact split_rc_none. Qed.

Example c19_case : splitRuleConfiguration $"a=b=3" = Val ($"a=b", $"3")
  /\ splitRuleConfiguration $"flag" = Val ($"flag", $"flag")
  /\ splitRuleConfiguration $"k=" = Val ($"k", []).
Proof. repeat split; vm_compute; reflexivity. Qed.

(** ** C20 *)
Theorem c20_rule_search_paths : forall read yaml e cl s,
  process read yaml e cl = Val s ->
  let given := cl_R cl ++ concat (map cf_rulePaths (config_files read yaml e)) in
  (given <> [] -> rulesPath e s = given)
  /\ (given = [] -> rulesPath e s = [en_bin e ++ $"/../lib/oclint/rules"]).
Proof.
  intros read yaml e cl s H given. unfold rulesPath. rewrite (rules_path_list _ _ _ _ _ H).
  fold given. destruct given as [|x g]; split; intros; try congruence; simpl; auto.
  unfold libPath, installPrefix. rewrite <- !app_assoc. reflexivity.
Qed.

Example c20_case : exists s, process exo_read exo_yaml exo_env exo_cl = Val s
  /\ rulesPath exo_env s = [$"r1"; $"r2"].
Proof. eexists. split; vm_compute; reflexivity. Qed.

(** ** C21 *)
Theorem c21_report_destination : forall e s,
  let o := o_value (argOutput s) in
  (hasOutputPath s = false <-> o = $"-")
  /\ (forall r, o = "/"%char :: r -> outputPath e s = Val o)
  /\ (forall c r, o = c :: r -> c <> "/"%char -> outputPath e s = Val (workingPath e ++ "/"%char :: o))
  /\ (o = [] -> outputPath e s = Exc $"out_of_range").
Proof.
  intros e s o. unfold hasOutputPath, outputPath. fold o. repeat split.
  - rewrite negb_false_iff. apply str_eqb_eq.
  - intros ->. reflexivity.
  - intros r ->. reflexivity.
  - intros c r -> Hc. apply ascii_eqb_neq in Hc. rewrite Hc. reflexivity.
  - intros ->. reflexivity.
Qed.

(** The working path is the initial directory when that is shorter than 300 bytes. *)
Theorem c21_working_path : forall e p,
  en_cwd e = Some p -> length p < 300 -> workingPath e = p.
Proof.
  intros e p H L. unfold workingPath. rewrite H.
  replace (length p + 1 <=? 300) with true; auto. symmetry. apply Nat.leb_le. lia.
Qed.

(** Finding: in a deeper directory a relative output path is taken under the root. *)
Theorem c21_relative_output_under_cwd_refuted : exists e s p,
  en_cwd e = Some p /\ o_value (argOutput s) = $"r.txt"
  /\ outputPath e s = Val $"/r.txt" /\ p ++ $"/r.txt" <> $"/r.txt".
Proof.
  exists {| en_cwd := Some ("/"%char :: repeat "a"%char 300); en_home := None; en_bin := [] |},
    (os_initial {| cl_output := Some $"r.txt"; cl_reportType := None; cl_R := []; cl_rc := [];
       cl_rule := []; cl_disableRule := []; cl_maxP1 := None; cl_maxP2 := None; cl_maxP3 := None;
       cl_globalAnalysis := None; cl_clangChecker := None; cl_duplications := None |}),
    ("/"%char :: repeat "a"%char 300).
  repeat split; try (vm_compute; reflexivity). discriminate.
Qed.

Example c21_case : exists s, process exo_read exo_yaml exo_env exo_cl = Val s
  /\ outputPath exo_env s = Val $"/w/out.txt" /\ hasOutputPath s = true.
Proof. eexists. split; vm_compute; auto. Qed.

(** ** C22 *)
Theorem c22_every_other_int_takes_effect : forall v,
  (createOptionalInt v = Some v <-> v <> INT_MIN)
  /\ (createOptionalInt v = None <-> v = INT_MIN).
Proof.
  intros v. unfold createOptionalInt. destruct (Z.eqb_spec v INT_MIN); split; split; congruence.
Qed.

Theorem c22_every_nonempty_text_takes_effect : forall t,
  (createOptionalString t = Some t <-> t <> []) /\ (createOptionalString t = None <-> t = []).
Proof. intros [|c t]; unfold createOptionalString; cbn; (split; split); intros H; try congruence; now destruct H. Qed.

(** Hence a configuration that sets INT_MIN (or the empty text) runs as if absent. *)
Theorem c22_sentinels_indistinguishable_from_absent : forall s f,
  processConfigFile s
    {| cf_rules := cf_rules f; cf_disableRules := cf_disableRules f; cf_rulePaths := cf_rulePaths f;
       cf_ruleConfigurations := cf_ruleConfigurations f; cf_output := []; cf_reportType := [];
       cf_maxP1 := INT_MIN; cf_maxP2 := INT_MIN; cf_maxP3 := INT_MIN;
       cf_clangChecker := cf_clangChecker f;
       cf_allowDuplicatedViolations := cf_allowDuplicatedViolations f;
       cf_enableGlobalAnalysis := cf_enableGlobalAnalysis f |}
  = let s' := processConfigFile s f in
    {| argOutput := argOutput s; argReportType := argReportType s; argRulesPath := argRulesPath s';
       argMaxP1 := argMaxP1 s; argMaxP2 := argMaxP2 s; argMaxP3 := argMaxP3 s;
       argGlobalAnalysis := argGlobalAnalysis s'; argClangChecker := argClangChecker s';
       argDuplications := argDuplications s'; os_filter := os_filter s'; os_cfg := os_cfg s' |}.
Proof. reflexivity. Qed.

Example c22_case : createOptionalInt 0 = Some 0%Z /\ createOptionalInt INT_MIN = None.
Proof. split; reflexivity. Qed.

Print Assumptions c16_option_precedence.
Print Assumptions c17_command_line_setting_wins.
Print Assumptions c17_last_file_setting_wins.
Print Assumptions c18_last_file_decides.
Print Assumptions c19_split_at_last_equals.
Print Assumptions c20_rule_search_paths.
Print Assumptions c21_report_destination.
Print Assumptions c22_sentinels_indistinguishable_from_absent.
