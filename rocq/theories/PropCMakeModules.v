(** * C149: what oclint-core, oclint-metrics and oclint-driver build *)
From Verif Require Import Base BaseFacts ModelScaffold ModelCMake ModelCMakeTexts ModelCMakeConfig SpecCMake SpecCMakeConfig SpecCMakeModules
  ProofCMake ProofCMakeRules ProofCMakeRoot ProofCMakeTests ProofCMakeConfig ProofCMakeReporters ProofCMakeModules PropCMake PropCMakeTests PropCMakeConfig PropCMakeCases.
Local Opaque commands_in config_run.

Definition checks_tests (sources ns : list str) : bool :=
  forallb (fun p => negb (in_test p) || existsb (fun n => str_eqb p ($"test/" ++ n ++ $".cpp")) ns) sources && forallb (fun n => listed_there sources ($"test/" ++ n ++ $".cpp")) ns.
Lemma module_builds : forall sources project binary libraries needs (tests : bool) s rels ns,
  map shape (s_targets s) = map (placed project) rels -> NoDup (map (fun r : rel => fst (fst r)) rels) -> checks_libraries sources libraries rels = true ->
  checks_tests sources ns = true ->
  s_tests s = runs (binary ++ $"/bin") tests ns -> s_vars s $"EXECUTABLE_OUTPUT_PATH" = Some (binary ++ $"/bin") ->
  (if tests then s_vars s $"CMAKE_TESTING_ENABLED" = Some $"1"
                 /\ forall n, In n ns -> exists t, In t (s_targets s) /\ shape t = placed project (rtest n) /\ incl needs (t_links t)
   else checks_no_tests rels = true) ->
  builds sources project binary libraries needs tests s.
Proof.
  intros sources project binary libraries needs tests s rels ns Sh Nd Li Ct Te Out Ts. split.
  - exact (builds_libraries sources project libraries rels s Sh Nd Li).
  - exact (builds_each sources project libraries rels s Sh Li).
  - destruct tests.
    + destruct Ts as [En Ts]. unfold checks_tests in Ct. apply andb_true_iff in Ct as [C1 C2]. rewrite forallb_forall in C1, C2. split; [exact En|]. split.
      * intros n I. specialize (C1 _ I). change (in_test ($"test/" ++ n ++ $".cpp")) with true in C1. cbn [negb orb] in C1.
        apply existsb_exists in C1 as (m & Im & E). apply str_eqb_eq in E. apply app_inv_head, app_inv_tail in E. subst m.
        destruct (Ts n Im) as (t & It & E & L). exists t. split; [exact It|exact (f_equal (fun r => fst (fst r)) E)|exact (f_equal (fun r => snd (fst r)) E)|exact (f_equal snd E)|exact L|].
        rewrite Te. cbn [runs]. apply (in_map (run_of (binary ++ $"/bin"))) in Im. unfold run_of in Im at 1. rewrite <- app_assoc in Im. exact Im.
      * intros n c I. rewrite Te in I. cbn [runs] in I. apply in_map_iff in I as (m & E & I). assert (Em : m = n) by exact (f_equal fst E). rewrite <- Em. apply there_in, C2, I.
    + split; [exact Te|]. exact (builds_no_test project rels s Sh Ts).
  - exact (shape_names project rels s Sh Nd).
  - exact Out.
  - exact (builds_ours sources project libraries rels s Sh Li).
Qed.
Lemma test_has : forall project links v n needs, name_like n -> incl needs (plain_values v links) ->
  let t := test_of links v (project ++ $"/test") n in shape t = placed project (rtest n) /\ incl needs (t_links t).
Proof. intros project links v n needs N I t. split; [apply shape_test, N|exact I]. Qed.
Lemma shape_tests : forall project links v ns, Forall name_like ns -> map shape (map (test_of links v (project ++ $"/test")) ns) = map (placed project) (map rtest ns).
Proof. intros project links v ns L. rewrite !map_map. apply map_ext_in. intros n I. rewrite Forall_forall in L. apply shape_test, L, I. Qed.

(** What the module knows about the machine. *)
Lemma module_vars : forall module project binary e given (tests : bool), machine module project binary e given -> asks given $"TEST_BUILD" tests ->
  str_eqb $"TEST_BUILD" (module ++ $"_SOURCE_DIR") = false ->
  exists v, oclint_config e (at_include module project binary given) = Some v /\ v $"EXECUTABLE_OUTPUT_PATH" = Some (binary ++ $"/bin") /\ no_semicolon (binary ++ $"/bin")
    /\ tests = negb (false_constant (match v $"TEST_BUILD" with Some x => x | None => [] end))
    /\ (tests = true -> v $"CMAKE_TESTING_ENABLED" = Some $"1" /\ listed_in v $"GTEST_LIBS" = [$"gmock"; $"gtest"]) /\ listed_in v $"CLANG_LIBRARIES" = clang_libraries.
Proof.
  intros module project binary e given tests M A Sep. destruct (machine_config _ _ _ _ _ M) as (v & Cv & _ & Pb & Kv). destruct M as [Mp Mb _ Mk _ Mm]. exists v. split; [exact Cv|].
  assert (Kk : forall k, In k [$"TEST_BUILD"; $"EXECUTABLE_OUTPUT_PATH"] -> llvm_keeps e k) by (intros k I a b; apply Mk; cbn [In] in *; tauto).
  assert (At : at_include module project binary given $"TEST_BUILD" = given $"TEST_BUILD") by (unfold at_include, assign; rewrite Sep; reflexivity).
  assert (Gv : v $"TEST_BUILD" = given $"TEST_BUILD") by (rewrite Kv by (cbn; auto); exact At).
  split. { apply (config_out e _ v Cv binary (Kk $"EXECUTABLE_OUTPUT_PATH" ltac:(cbn; auto))); [|exact Mb]. unfold at_include. rewrite assign_other by discriminate. apply assign_same. }
  split. { apply no_semicolon_app; [exact Mb|apply semicolon_check; reflexivity]. }
  split; [|split].
  - rewrite Gv. destruct tests; cbn [asks] in A.
    + destruct (on_true _ _ A) as (x & -> & ->). reflexivity.
    + rewrite (off_false _ _ A). reflexivity.
  - intros ->. cbn [asks] in A. destruct (on_true _ _ A) as (x & Gx & Fx).
    destruct (config_tests e _ v Cv (Kk $"TEST_BUILD" ltac:(cbn; auto)) x (eq_trans At Gx) Fx) as (Gt & Te & _). split; [exact Te|]. unfold listed_in. rewrite Gt. reflexivity.
  - unfold listed_in. rewrite (config_clang e _ v Cv). reflexivity.
Qed.
(** The libraries for tests are among those linked. *)
Lemma needs_in : forall v fixed more needs, plain_values v (map u fixed) = fixed -> listed_in v $"GTEST_LIBS" = [$"gmock"; $"gtest"] -> listed_in v $"CLANG_LIBRARIES" = clang_libraries ->
  (forall x, In x needs -> In x fixed \/ In x [$"gmock"; $"gtest"] \/ In x clang_libraries) -> incl needs (plain_values v (map u fixed ++ all_links ++ more)).
Proof.
  intros v fixed more needs Fx G C H x I. rewrite plain_values_app, Fx. apply in_or_app. destruct (H x I) as [J|[J|J]]; [left; exact J|right; rewrite plain_values_app; apply in_or_app; left..].
  - apply (plain_values_in v all_links x (u $"${GTEST_LIBS}")); [left; reflexivity|]. rewrite (plain_listed v $"GTEST_LIBS") by reflexivity. rewrite G. exact J.
  - apply (plain_values_in v all_links x (u $"${CLANG_LIBRARIES}")); [cbn; auto|]. rewrite (plain_listed v $"CLANG_LIBRARIES") by reflexivity. rewrite C. exact J.
Qed.
Lemma copied_sources : forall lists sources project f s libraries needs tests binary, module_copy lists sources project f -> builds sources project binary libraries needs tests s ->
  forall t x, In t (s_targets s) -> In x (t_sources t) -> f x <> None.
Proof.
  intros lists sources project f s libraries needs tests binary [_ C] B t x It Ix. destruct (b_ours _ _ _ _ _ _ _ B t x (conj It Ix)) as (p & I & ->). exact (C p I).
Qed.

Definition test_needs : list str := [$"gmock"; $"gtest"; $"clangTooling"; $"clangAST"; $"clangBasic"].
Ltac in_needs := let x := fresh in let I := fresh in intros x I; cbn [In test_needs app] in I; repeat destruct I as [<-|I]; try destruct I; cbn [In clang_libraries]; tauto.

(** ** oclint-core *)
Definition core_rels (tests : bool) : list rel :=
  [rlib $"OCLintCore" core_sources_of; rlib $"OCLintRuleSet" ruleset_sources_of] ++ map rtest (if tests then core_tests_1 ++ core_tests_2 else []).
Theorem c149_core : forall project binary e given f (tests : bool),
  machine $"OCLINT_CORE" project binary e given -> asks given $"TEST_BUILD" tests -> module_copy core_lists core_sources project f ->
  exists s, configures f binary (oclint_config e) project given s
    /\ builds core_sources project binary [$"OCLintCore"; $"OCLintRuleSet"] ([$"OCLintCore"; $"OCLintRuleSet"] ++ [$"gmock"; $"gtest"; $"clangTooling"; $"clangAST"; $"clangBasic"]) tests s.
Proof.
  intros project binary e given f tests M A C. destruct (module_vars _ _ _ _ _ _ M A eq_refl) as (v & Cv & Eo & Ho & Et & Tn & Cl). destruct M as [Mp Mb _ _ _ Mm].
  destruct (core_run f binary (oclint_config e) project given v Mm (binary ++ $"/bin") Eo Ho Cv (proj1 C)) as (ms & ds & R).
  change (match v $"TEST_BUILD" with Some x => x | None => [] end) with (value v $"TEST_BUILD") in Et. rewrite <- Et in R. set (s := St v ms _ _ ds) in R. exists s.
  assert (B : builds core_sources project binary [$"OCLintCore"; $"OCLintRuleSet"] ([$"OCLintCore"; $"OCLintRuleSet"] ++ test_needs) tests s).
  { apply (module_builds _ _ _ _ _ _ _ (core_rels tests) (core_tests_1 ++ core_tests_2)).
    - unfold s. cbn [St s_targets]. destruct tests; cbn [core_targets]; unfold core_rels, core_libs.
      + rewrite map_app, shape_linking, map_app, !shape_tests by (apply names_ok; reflexivity). cbn [map app]. rewrite !shape_lib by (apply names_ok; reflexivity). rewrite !map_app. cbn [app]. rewrite <- !map_app. reflexivity.
      + cbn [map app]. rewrite !shape_lib by (apply names_ok; reflexivity). reflexivity.
    - apply nodup_ok. destruct tests; vm_compute; reflexivity.
    - destruct tests; vm_compute; reflexivity.
    - vm_compute. reflexivity.
    - reflexivity.
    - exact Eo.
    - destruct tests; [|vm_compute; reflexivity]. destruct (Tn eq_refl) as [En G]. split; [exact En|]. intros n I.
      assert (Nn : name_like n) by (assert (X : Forall name_like (core_tests_1 ++ core_tests_2)) by (apply names_ok; reflexivity); rewrite Forall_forall in X; exact (X n I)).
      assert (Nd : incl ([$"OCLintCore"; $"OCLintRuleSet"] ++ test_needs) (plain_values v core_links)).
      { apply (needs_in v [$"OCLintRuleSet"; $"OCLintCore"] dl_link); [apply plain_literals; reflexivity|exact G|exact Cl|]. in_needs. }
      destruct (test_has project core_links v n _ Nn Nd) as [Sn Ln]. unfold s. cbn [St s_targets core_targets]. apply in_app_iff in I as [I|I].
      + set (t := test_of core_links v (project ++ $"/test") n) in *.
        exists (if str_eqb (t_name t) $"RuleSetTest" then linked [$"OCLintRuleSet"] t else t). split; [|split].
        * apply in_or_app. left. unfold linking. apply (in_map (fun t => if str_eqb (t_name t) $"RuleSetTest" then linked [$"OCLintRuleSet"] t else t)).
          apply in_or_app. right. apply in_map, I.
        * destruct (str_eqb _ _); [rewrite shape_linked|]; exact Sn.
        * destruct (str_eqb _ _); [|exact Ln]. intros x J. apply in_or_app. left. exact (Ln x J).
      + eexists. split; [apply in_or_app; right; apply in_map, I|]. split; [exact Sn|exact Ln]. }
  split; [|exact B].
  apply (configure_done _ _ _ _ _ (text_of core_lists $"CMakeLists.txt") core_root s); [apply (proj1 C); left; reflexivity|exact (proj1 core_texts)|exact R|].
  exact (copied_sources _ _ _ _ _ _ _ _ _ C B).
Qed.

(** ** oclint-metrics *)
Definition metrics_rels (tests : bool) : list rel := [rlib $"OCLintMetric" metrics_sources_of] ++ map rtest (if tests then metrics_tests else []).
Theorem c149_metrics : forall project binary e given f (tests : bool),
  machine $"OCLINT_METRICS" project binary e given -> asks given $"TEST_BUILD" tests -> module_copy metrics_lists metrics_sources project f ->
  exists s, configures f binary (oclint_config e) project given s
    /\ builds metrics_sources project binary [$"OCLintMetric"] ($"OCLintMetric" :: [$"gmock"; $"gtest"; $"clangTooling"; $"clangAST"; $"clangBasic"]) tests s.
Proof.
  intros project binary e given f tests M A C. destruct (module_vars _ _ _ _ _ _ M A eq_refl) as (v & Cv & Eo & Ho & Et & Tn & Cl). destruct M as [Mp Mb _ _ _ Mm].
  destruct (metrics_run f binary (oclint_config e) project given v Mm (binary ++ $"/bin") Eo Ho Cv (proj1 C)) as (ms & ds & R).
  change (match v $"TEST_BUILD" with Some x => x | None => [] end) with (value v $"TEST_BUILD") in Et. rewrite <- Et in R. set (s := St v ms _ _ ds) in R. exists s.
  assert (B : builds metrics_sources project binary [$"OCLintMetric"] ($"OCLintMetric" :: test_needs) tests s).
  { apply (module_builds _ _ _ _ _ _ _ (metrics_rels tests) metrics_tests).
    - unfold s. cbn [St s_targets]. unfold metrics_targets, metrics_rels, metrics_libs. rewrite !map_app. cbn [map]. rewrite shape_lib by (apply names_ok; reflexivity). f_equal.
      destruct tests; [apply shape_tests, names_ok|]; reflexivity.
    - apply nodup_ok. destruct tests; vm_compute; reflexivity.
    - destruct tests; vm_compute; reflexivity.
    - vm_compute. reflexivity.
    - reflexivity.
    - exact Eo.
    - destruct tests; [|vm_compute; reflexivity]. destruct (Tn eq_refl) as [En G]. split; [exact En|]. intros n I.
      assert (Nn : name_like n) by (assert (X : Forall name_like metrics_tests) by (apply names_ok; reflexivity); rewrite Forall_forall in X; exact (X n I)).
      assert (Nd : incl ($"OCLintMetric" :: test_needs) (plain_values v metrics_links)).
      { apply (needs_in v [$"OCLintMetric"] dl_link); [apply plain_literals; reflexivity|exact G|exact Cl|]. in_needs. }
      eexists. split; [apply in_or_app; right; apply in_map, I|]. exact (test_has project metrics_links v n _ Nn Nd). }
  split; [|exact B].
  apply (configure_done _ _ _ _ _ (text_of metrics_lists $"CMakeLists.txt") metrics_root s); [apply (proj1 C); left; reflexivity|exact (proj1 metrics_texts)|exact R|].
  exact (copied_sources _ _ _ _ _ _ _ _ _ C B).
Qed.

(** ** oclint-driver *)
Lemma config_version : forall e given w, oclint_config e given = Some w -> llvm_keeps e $"OCLINT_VERSION_RELEASE" -> w $"OCLINT_VERSION_RELEASE" = Some $"26.02".
Proof.
  intros e given w Run L. destruct (config_down e given w Run 11) as (f & v & R & _); [checks|].
  assert (E : remaining config_commands 11 = cmd $"set" [u $"OCLINT_VERSION_RELEASE"; q $"26.02"] :: remaining config_commands 12) by checks. rewrite E in R.
  apply config_step in R as (f2 & v2 & C & R); [|reflexivity]. unfold cmd in C. rewrite (config_set e _ v $"OCLINT_VERSION_RELEASE" $"26.02" []) in C; [|reflexivity|reflexivity].
  injection C as <-. rewrite (config_keeps e $"OCLINT_VERSION_RELEASE" (remaining config_commands 12) f2 _ w (fun _ => L) ltac:(checks) R). apply assign_same.
Qed.
Definition driver_rels (tests docs : bool) : list rel :=
  [rlib $"OCLintDriver" driver_sources_of; (program_name, Executable, program_files)] ++ map rtest (if tests then [$"RulesetFilterTest"] else [])
  ++ if docs then [($"oclint-docgen", Executable, docgen_files)] else [].
Lemma program_links_are : forall v links mid profile, links = analyzer_links ++ mid ++ llvm_links -> listed_in v $"CLANG_LIBRARIES" = clang_libraries ->
  exists rest, plain_values v links ++ profile = [$"OCLintDriver"; $"OCLintRuleSet"; $"OCLintCore"] ++ rest
    /\ incl [$"clangStaticAnalyzerFrontend"; $"clangTooling"; $"clangFrontend"; $"clangAST"; $"clangLex"; $"clangBasic"] rest.
Proof.
  intros v links mid profile -> C. rewrite plain_values_app. unfold analyzer_links. rewrite plain_literals by reflexivity. cbn [app]. eexists. split; [reflexivity|].
  intros x I. destruct I as [<-|I]; [left; reflexivity|]. do 5 right. apply in_or_app. left. rewrite plain_values_app. apply in_or_app. right.
  apply (plain_values_in v llvm_links x (u $"${CLANG_LIBRARIES}")); [left; reflexivity|]. rewrite (plain_listed v $"CLANG_LIBRARIES") by reflexivity. rewrite C.
  cbn [In] in I. repeat destruct I as [<-|I]; try destruct I; cbn [In clang_libraries]; tauto.
Qed.
Theorem c149_driver : forall project binary e given f (tests docs : bool),
  machine $"OCLINT_DRIVER" project binary e given -> asks given $"TEST_BUILD" tests -> asks given $"DOC_GEN_BUILD" docs ->
  leaves e [$"DOC_GEN_BUILD"; $"OCLINT_VERSION_RELEASE"] -> module_copy driver_lists driver_sources project f ->
  exists s, configures f binary (oclint_config e) project given s
    /\ builds driver_sources project binary [$"OCLintDriver"] ([$"OCLintDriver"; $"OCLintRuleSet"; $"OCLintCore"] ++ [$"gmock"; $"gtest"; $"clangTooling"; $"clangAST"; $"clangBasic"]) tests s
    /\ (exists t, In t (s_targets s) /\ driver_program project ($"oclint-" ++ oclint_version) [$"main.cpp"; $"reporters_dlfcn_port.cpp"; $"rules_dlfcn_port.cpp"] t)
    /\ (docs = true -> exists t, In t (s_targets s) /\ driver_program project $"oclint-docgen" [$"main_docgen.cpp"; $"rules_dlfcn_port.cpp"] t)
    /\ (forall t, In t (s_targets s) -> t_kind t = Executable ->
         t_name t = $"oclint-" ++ oclint_version \/ docs = true /\ t_name t = $"oclint-docgen" \/ In (t_name t) (map fst (s_tests s))).
Proof.
  intros project binary e given f tests docs M A Ad Lv C. destruct (module_vars _ _ _ _ _ _ M A eq_refl) as (v & Cv & Eo & Ho & Et & Tn & Cl). destruct M as [Mp Mb _ _ _ Mm].
  assert (Vv : v $"OCLINT_VERSION_RELEASE" = Some $"26.02") by (apply (config_version e _ v Cv); intros a b; apply Lv; cbn; auto).
  assert (Ed : docs = negb (false_constant (value v $"DOC_GEN_BUILD"))).
  { assert (Gv : v $"DOC_GEN_BUILD" = given $"DOC_GEN_BUILD") by (rewrite (config_kept e _ v Cv $"DOC_GEN_BUILD"); [reflexivity|intros a b; apply Lv; cbn; auto|checks]).
    unfold value. rewrite Gv. destruct docs; cbn [asks] in Ad.
    - destruct (on_true _ _ Ad) as (x & -> & ->). reflexivity.
    - rewrite (off_false _ _ Ad). reflexivity. }
  destruct (driver_run f binary (oclint_config e) project given v Mm (binary ++ $"/bin") Eo Ho Cv Vv (proj1 C)) as (ms & ds & R).
  change (match v $"TEST_BUILD" with Some x => x | None => [] end) with (value v $"TEST_BUILD") in Et. rewrite <- Et, <- Ed in R. set (s := St v ms _ _ ds) in R. exists s.
  assert (Sh : map shape (s_targets s) = map (placed project) (driver_rels tests docs)).
  { unfold s. cbn [St s_targets]. unfold driver_targets, driver_rels, driver_lib. rewrite !map_app, app_assoc. f_equal; [f_equal|].
    - cbn [map]. rewrite shape_lib, shape_exe by (apply names_ok; reflexivity). reflexivity.
    - destruct tests; [apply (shape_tests project driver_test_links v [$"RulesetFilterTest"]), names_ok|]; reflexivity.
    - destruct docs; [cbn [map]; rewrite shape_exe by (apply names_ok; reflexivity)|]; reflexivity. }
  assert (B : builds driver_sources project binary [$"OCLintDriver"] ([$"OCLintDriver"; $"OCLintRuleSet"; $"OCLintCore"] ++ test_needs) tests s).
  { apply (module_builds _ _ _ _ _ _ _ (driver_rels tests docs) [$"RulesetFilterTest"]).
    - exact Sh.
    - apply nodup_ok. destruct tests, docs; vm_compute; reflexivity.
    - destruct tests, docs; vm_compute; reflexivity.
    - vm_compute. reflexivity.
    - reflexivity.
    - exact Eo.
    - destruct tests; [|destruct docs; vm_compute; reflexivity]. destruct (Tn eq_refl) as [En G]. split; [exact En|]. intros n I. destruct I as [<-|[]].
      assert (Nn : name_like $"RulesetFilterTest") by (split; [discriminate|apply checked; reflexivity]).
      assert (Nd : incl ([$"OCLintDriver"; $"OCLintRuleSet"; $"OCLintCore"] ++ test_needs) (plain_values v driver_test_links)).
      { unfold driver_test_links. rewrite <- (app_nil_r all_links). apply needs_in; [apply plain_literals; reflexivity|exact G|exact Cl|]. in_needs. }
      eexists. split; [apply in_or_app; left; apply in_or_app; right; left; reflexivity|]. exact (test_has project driver_test_links v _ _ Nn Nd). }
  assert (Join : forall l, Forall name_like l -> map (join project) l = map (fun x => project ++ $"/" ++ x) l).
  { intros l L. apply map_ext_in. intros x I. rewrite Forall_forall in L. rewrite join_name by exact (L x I). reflexivity. }
  split; [|split; [exact B|split; [|split]]].
  - apply (configure_done _ _ _ _ _ (text_of driver_lists $"CMakeLists.txt") driver_root s); [apply (proj1 C); left; reflexivity|exact (proj1 driver_texts)|exact R|].
    exact (copied_sources _ _ _ _ _ _ _ _ _ C B).
  - eexists. split; [apply in_or_app; left; apply in_or_app; left; right; left; reflexivity|]. split; cbn [exe t_name t_kind t_sources t_links]; [reflexivity|reflexivity|apply Join, names_ok; reflexivity|].
    apply (program_links_are v program_links (map u [$"clangCrossTU"; $"clangIndex"])); [reflexivity|exact Cl].
  - intros ->. eexists. split; [apply in_or_app; right; left; reflexivity|]. split; cbn [exe t_name t_kind t_sources t_links]; [reflexivity|reflexivity|apply Join, names_ok; reflexivity|].
    rewrite <- (app_nil_r (plain_values v docgen_links)). apply (program_links_are v docgen_links []); [reflexivity|exact Cl].
  - intros t It K. unfold s in *. cbn [St s_targets s_tests] in *. unfold driver_targets in It. apply in_app_iff in It as [It|It]; [apply in_app_iff in It as [It|It]|].
    + destruct It as [<-|[<-|[]]]; [discriminate K|left; reflexivity].
    + destruct tests; [|destruct It]. destruct It as [<-|[]]. right. right. left. reflexivity.
    + destruct docs; [|destruct It]. destruct It as [<-|[]]. right. left. split; reflexivity.
Qed.

(** A copy of each module, on the machine of C146, with and without the tests. *)
Definition copy_of (lists : list (str * str)) (sources : list str) (project : str) : files := fun p =>
  match find (fun e => str_eqb (project ++ $"/" ++ fst e) p) lists with
  | Some (_, t) => Some t
  | None => if existsb (fun e => str_eqb (project ++ $"/" ++ e) p) sources then Some [] else None
  end.
Lemma copy_is : forall lists sources project,
  forallb (fun e => match copy_of lists sources project (project ++ $"/" ++ fst e) with Some t => str_eqb t (snd e) | None => false end) lists = true ->
  module_copy lists sources project (copy_of lists sources project).
Proof.
  intros lists sources project H. rewrite forallb_forall in H. split.
  - intros p t I. specialize (H _ I). cbn [fst snd] in H. destruct (copy_of _ _ _ _) as [t'|]; [|discriminate]. apply str_eqb_eq in H. congruence.
  - intros p I. unfold copy_of. destruct (find _ _) as [[a b]|]; [discriminate|]. replace (existsb _ sources) with true; [discriminate|]. symmetry. apply existsb_exists. exists p. split; [exact I|apply str_eqb_refl].
Qed.
Lemma copied_machine : forall module project given, ~ In ";"%char project -> given $"CMAKE_SYSTEM_NAME" = Some $"Linux" -> given $"CMAKE_MODULE_PATH" = None ->
  match oclint_config around (at_include module project $"/oclint/build" given) with Some _ => true | None => false end = true -> machine module project $"/oclint/build" around given.
Proof.
  intros module project given N G1 G2 X. split; [exact N| | | | |exact G2].
  - apply semicolon_check. reflexivity.
  - intros E. rewrite E in X. clear E. discriminate X.
  - intros v w k I E. injection E as <-. cbn [In] in I. repeat destruct I as [<-|I]; reflexivity || destruct I.
  - exists $"Linux". split; [exact G1|]. split; [discriminate|apply semicolon_check; reflexivity].
Qed.
Definition everything : variables := assign testing $"DOC_GEN_BUILD" (Some $"ON").
Example c149_case :
  (exists f, module_copy core_lists core_sources $"/oclint/oclint-core" f) /\ (exists f, module_copy metrics_lists metrics_sources $"/oclint/oclint-metrics" f)
  /\ (exists f, module_copy driver_lists driver_sources $"/oclint/oclint-driver" f)
  /\ (forall m d, In (m, d) [($"OCLINT_CORE", $"/oclint/oclint-core"); ($"OCLINT_METRICS", $"/oclint/oclint-metrics"); ($"OCLINT_DRIVER", $"/oclint/oclint-driver")] ->
        machine m d $"/oclint/build" around linux /\ machine m d $"/oclint/build" around everything)
  /\ asks linux $"TEST_BUILD" false /\ asks everything $"TEST_BUILD" true /\ asks linux $"DOC_GEN_BUILD" false /\ asks everything $"DOC_GEN_BUILD" true
  /\ leaves around [$"DOC_GEN_BUILD"; $"OCLINT_VERSION_RELEASE"].
Proof.
  split; [eexists; apply copy_is; vm_compute; reflexivity|]. split; [eexists; apply copy_is; vm_compute; reflexivity|]. split; [eexists; apply copy_is; vm_compute; reflexivity|].
  split.
  { intros m d I.
    assert (N : ~ In ";"%char d) by (cbn [In] in I; destruct I as [I|[I|[I|[]]]]; apply pair_equal_spec in I as [<- <-]; apply semicolon_check; reflexivity).
    split; apply copied_machine; [exact N|reflexivity|reflexivity| |exact N|reflexivity|reflexivity| ]; clear N;
      cbn [In] in I; destruct I as [I|[I|[I|[]]]]; apply pair_equal_spec in I as [<- <-]; vm_compute; reflexivity. }
  split; [left; reflexivity|]. split; [exists $"1"; split; [reflexivity|left; reflexivity]|]. split; [left; reflexivity|]. split; [exists $"ON"; split; [reflexivity|right; left; reflexivity]|].
  intros k v w I E. injection E as <-. cbn [In] in I. repeat destruct I as [<-|I]; reflexivity || destruct I.
Qed.

Print Assumptions c149_core.
Print Assumptions c149_metrics.
Print Assumptions c149_driver.
