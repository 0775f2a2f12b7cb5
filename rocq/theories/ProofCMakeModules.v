(** * The build files of oclint-core, oclint-metrics and oclint-driver: lemmas for C149 *)
From Verif Require Import Base BaseFacts ModelScaffold ModelCMake ModelCMakeTexts SpecCMake SpecCMakeModules
  ProofCMake ProofCMakeRules ProofCMakeRoot ProofCMakeTests ProofCMakeConfig ProofCMakeReporters.
Local Opaque commands_in.

(** ** Values that depend on few variables *)
Definition refs (l : list argument) : list str :=
  flat_map (fun a => flat_map (fun s => match s with Ref n => [n] | Lit _ => [] end) (a_text a)) l.
Lemma expand_refs : forall v w t, (forall n, In (Ref n) t -> v n = w n) -> expand v t = expand w t.
Proof.
  intros v w t. induction t as [|x t IH]; intros H; [reflexivity|]. unfold expand in *. cbn [flat_map]. rewrite IH by (intros n I; apply H; right; exact I).
  destruct x as [c|n]; [reflexivity|]. rewrite (H n (or_introl eq_refl)). reflexivity.
Qed.
Lemma values_refs : forall v w l, (forall n, In n (refs l) -> v n = w n) -> values v l = values w l.
Proof.
  intros v w l. induction l as [|a l IH]; intros H; [reflexivity|]. unfold values in *. cbn [flat_map].
  rewrite IH by (intros n I; apply H; unfold refs; cbn [flat_map]; apply in_or_app; right; exact I).
  rewrite (expand_refs v w (a_text a)); [reflexivity|]. intros n I. apply H. unfold refs. cbn [flat_map]. apply in_or_app. left.
  apply in_flat_map. exists (Ref n). split; [exact I|left; reflexivity].
Qed.
Definition taken : list str := [current; $"name"; $"ARGN"; $"ARGV"; $"ARGC"].
Definition free (l : list argument) : bool := forallb (fun k => negb (existsb (str_eqb k) taken)) (refs l).

(** ** Commands from a state *)
Definition St (v : variables) (ms : list (str * (list str * list command))) (ts : list target) (te : list (str * list str)) (ds : list str) : cstate :=
  {| s_vars := v; s_macros := ms; s_targets := ts; s_tests := te; s_dirs := ds |}.
Definition exe (dir n : str) (srcs links : list str) : target :=
  {| t_name := n; t_kind := Executable; t_sources := map (join dir) srcs; t_properties := []; t_links := links |}.
Definition linked (libs : list str) (t : target) : target :=
  {| t_name := t_name t; t_kind := t_kind t; t_sources := t_sources t; t_properties := t_properties t; t_links := t_links t ++ libs |}.
Definition linking (n : str) (libs : list str) (ts : list target) : list target := map (fun t => if str_eqb (t_name t) n then linked libs t else t) ts.
Section Commands.
  Variables (F : files) (binary : str) (config : variables -> option variables).
  Notation steps := (steps F binary config).
  Definition missing (k : str) (ms : list (str * (list str * list command))) : Prop := find (fun m => str_eqb (fst m) k) ms = None.
  Lemma st_exe : forall dir n srcs args rest v ms ts te ds s2, missing $"add_executable" ms -> is_target n ts = false ->
    plain_values v args = n :: srcs -> steps dir rest (St v ms (ts ++ [exe dir n srcs []]) te ds) s2 ->
    steps dir (cmd $"add_executable" args :: rest) (St v ms ts te ds) s2.
  Proof.
    intros dir n srcs args rest v ms ts te ds s2 M T A R. eapply steps_builtin; [reflexivity|exact M| |exact R].
    erewrite builtin_executable; [|reflexivity|exact A]. rewrite add_last by exact T. reflexivity.
  Qed.
  Lemma st_link : forall dir n libs args rest v ms ts te ds s2, missing $"target_link_libraries" ms -> is_target n ts = true ->
    plain_values v args = n :: libs -> steps dir rest (St v ms (linking n libs ts) te ds) s2 ->
    steps dir (cmd $"target_link_libraries" args :: rest) (St v ms ts te ds) s2.
  Proof.
    intros dir n libs args rest v ms ts te ds s2 M T A R. eapply steps_builtin; [reflexivity|exact M| |exact R].
    erewrite builtin_links; [|reflexivity|exact A]. unfold change_target. cbn [s_targets St]. rewrite T. reflexivity.
  Qed.
  Lemma linking_last : forall n libs ts t, is_target n ts = false -> t_name t = n -> linking n libs (ts ++ [t]) = ts ++ [linked libs t].
  Proof.
    intros n libs ts t T N. unfold linking. rewrite map_app. cbn [map]. rewrite N, str_eqb_refl. f_equal. unfold is_target in T.
    induction ts as [|x ts IH]; [reflexivity|]. cbn [existsb] in T. apply Bool.orb_false_iff in T as [X T]. cbn [map]. rewrite X. f_equal. apply IH, T.
  Qed.
  Lemma is_target_last : forall n ts t, t_name t = n -> is_target n (ts ++ [t]) = true.
  Proof. intros n ts t <-. unfold is_target. rewrite existsb_app. cbn [existsb]. rewrite str_eqb_refl. apply Bool.orb_true_r. Qed.
  Lemma st_link_last : forall dir n libs args rest v ms ts t te ds s2, missing $"target_link_libraries" ms -> is_target n ts = false -> t_name t = n ->
    plain_values v args = n :: libs -> steps dir rest (St v ms (ts ++ [linked libs t]) te ds) s2 ->
    steps dir (cmd $"target_link_libraries" args :: rest) (St v ms (ts ++ [t]) te ds) s2.
  Proof.
    intros dir n libs args rest v ms ts t te ds s2 M T N A R. eapply (st_link dir n libs); [exact M|apply is_target_last, N|exact A|]. rewrite linking_last by assumption. exact R.
  Qed.

  (** ** The macro for tests *)
  Variable links : list argument.
  Hypothesis Free : free links = true.
  Variable out : str.
  Hypothesis Ho : no_semicolon out.
  Definition build_test_body : list command :=
    [cmd $"add_executable" [u $"${name}"; u $"${name}.cpp"]; cmd $"target_link_libraries" (u $"${name}" :: links);
     cmd $"add_test" [u $"${name}"; u $"${EXECUTABLE_OUTPUT_PATH}/${name}"]].
  Definition build_test_macro : list command := [cmd $"macro" [u $"build_test"; u $"name"]] ++ build_test_body ++ [cmd $"endmacro" [u $"build_test"]].
  Definition build_test_macros : list (str * (list str * list command)) := [($"build_test", ([$"name"], build_test_body))].
  Variable w : variables.
  Hypothesis Out : w $"EXECUTABLE_OUTPUT_PATH" = Some out.
  Definition test_of (dir n : str) : target := exe dir n [n ++ $".cpp"] (plain_values w links).
  Lemma test_once : forall dir n rest ts te ds s2, name_like n -> is_target n ts = false ->
    steps dir rest (St (assign w current (Some dir)) build_test_macros (ts ++ [test_of dir n]) (te ++ [run_of out n]) ds) s2 ->
    steps dir (reporter_test_call n :: rest) (St (assign w current (Some dir)) build_test_macros ts te ds) s2.
  Proof.
    intros dir n rest ts te ds s2 N Fr R. set (v := assign w current (Some dir)) in *. pose proof N as [Xn Nc]. pose proof (names_no_semicolon n Nc) as Nn.
    assert (A : plain_values v (c_args (reporter_test_call n)) = [n]) by (apply (values_bares v [n]); constructor; [auto|constructor]).
    eapply (steps_call _ _ _ dir _ rest [$"name"] build_test_body); [reflexivity|reflexivity| | |exact R].
    { cbn [s_vars St]. rewrite A. cbn. lia. }
    cbn [s_vars St]. rewrite A. set (b := bindings [$"name"] [n]). rewrite map_inst. unfold build_test_body. cbn [map c_name c_args cmd].
    assert (Vn : forall v, val (over b v) $"${name}" = n) by (intros z; change (n ++ [] = n); apply app_nil_r).
    assert (Ve : val (over b v) $"${EXECUTABLE_OUTPUT_PATH}/${name}" = out ++ $"/" ++ n).
    { change (match w $"EXECUTABLE_OUTPUT_PATH" with Some x => x | None => [] end ++ $"/" ++ n ++ [] = out ++ $"/" ++ n). rewrite Out, app_nil_r. reflexivity. }
    assert (Vl : plain_values v (map (inst b) links) = plain_values w links).
    { unfold plain_values. f_equal. rewrite values_inst. apply values_refs. intros k I. unfold free in Free. rewrite forallb_forall in Free. specialize (Free k I).
      apply Bool.negb_true_iff in Free. unfold taken in Free. cbn [existsb] in Free. repeat (apply Bool.orb_false_iff in Free as [? Free]).
      unfold over, b, bindings. cbn [existsb]. rewrite H0, H1, H2, H3. cbn [orb]. unfold v, assign. rewrite H. reflexivity. }
    apply (st_exe dir n [n ++ $".cpp"]); [reflexivity|exact Fr| |].
    { unfold plain_values. rewrite (values_iu _ _ _ n) by auto. rewrite (values_iu _ _ _ (n ++ $".cpp")); [reflexivity|reflexivity|semi|full]. }
    eapply (st_link_last dir n (plain_values w links)); [reflexivity|exact Fr|reflexivity| |].
    { unfold plain_values at 1. cbn [map]. rewrite (values_iu _ _ _ n) by auto. cbn [map snd]. f_equal. exact Vl. }
    eapply steps_builtin; [reflexivity|reflexivity| |apply steps_nil].
    rewrite (builtin_test _ _ _ _ _ n (out ++ $"/" ++ n) []); [reflexivity|reflexivity|].
    unfold plain_values. cbn [c_args cmd s_vars St]. rewrite (values_iu _ _ _ n) by auto. rewrite (values_iu _ _ _ (out ++ $"/" ++ n)); [reflexivity|exact Ve| |].
    - apply no_semicolon_app; [exact Ho|]. apply no_semicolon_app; [apply semicolon_check; reflexivity|exact Nn].
    - apply app_not_nil. right. discriminate.
  Qed.
  Lemma tests_then : forall dir ns rest ts te ds s2, Forall name_like ns -> NoDup (map t_name ts ++ ns) ->
    steps dir rest (St (assign w current (Some dir)) build_test_macros (ts ++ map (test_of dir) ns) (te ++ map (run_of out) ns) ds) s2 ->
    steps dir (map reporter_test_call ns ++ rest) (St (assign w current (Some dir)) build_test_macros ts te ds) s2.
  Proof.
    intros dir ns. induction ns as [|n ns IH]; intros rest ts te ds s2 L Nd R.
    - cbn [map app] in *. rewrite !app_nil_r in R. exact R.
    - inversion_clear L as [|? ? Ln Ls]. destruct (nodup_step _ _ _ Nd) as [Fn Nd']. cbn [map app]. apply test_once; [exact Ln|apply is_target_not, Fn|].
      apply IH; [exact Ls|rewrite map_app; exact Nd'|]. rewrite <- !app_assoc. exact R.
  Qed.
End Commands.

(** ** From targets to what is built *)
Definition rel := (str * kind * list str)%type.
Definition shape (t : target) : rel := (t_name t, t_kind t, t_sources t).
Definition placed (project : str) (r : rel) : rel := (fst (fst r), snd (fst r), map (fun p => project ++ $"/" ++ p) (snd r)).
Definition in_lib (p : str) : bool := str_eqb (firstn 4 p) $"lib/".
Definition in_test (p : str) : bool := str_eqb (firstn 5 p) $"test/".
Definition listed_there (l : list str) (p : str) : bool := existsb (str_eqb p) l.
Lemma there_in : forall l p, listed_there l p = true <-> In p l.
Proof.
  intros l p. unfold listed_there. rewrite existsb_exists. split; [intros (x & I & E); apply str_eqb_eq in E; subst x; exact I|intros I; exists p; split; [exact I|apply str_eqb_refl]].
Qed.
Definition is_static (r : rel) : bool := match snd (fst r) with Static => true | _ => false end.
Definition checks_libraries (sources libraries : list str) (rels : list rel) : bool :=
  forallb (fun p => negb (in_lib p) || match filter (fun r : rel => listed_there (snd r) p) rels with
                                       | [r] => is_static r && listed_there libraries (fst (fst r)) | _ => false end) sources
  && forallb (fun n => existsb (fun r => is_static r && str_eqb (fst (fst r)) n) rels) libraries
  && forallb (fun r => forallb (listed_there sources) (snd r)) rels.
Definition checks_no_tests (rels : list rel) : bool := forallb (fun r => forallb (fun p => negb (in_test p)) (snd r)) rels.
Lemma same_name : forall (l : list target) a b, NoDup (map t_name l) -> In a l -> In b l -> t_name a = t_name b -> a = b.
Proof.
  induction l as [|x l IH]; intros a b N A B E; [destruct A|]. cbn [map] in N. inversion_clear N as [|? ? X Y].
  destruct A as [<-|A], B as [<-|B]; [reflexivity| | |exact (IH a b Y A B E)]; exfalso; apply X; [rewrite E|rewrite <- E]; apply in_map; assumption.
Qed.
Section Shapes.
  Variables (sources : list str) (project binary : str) (libraries : list str) (rels : list rel) (s : cstate).
  Hypothesis Sh : map shape (s_targets s) = map (placed project) rels.
  Hypothesis Names : NoDup (map (fun r => fst (fst r)) rels).
  Hypothesis Libs : checks_libraries sources libraries rels = true.
  Lemma shape_names : NoDup (map t_name (s_targets s)).
  Proof.
    replace (map t_name (s_targets s)) with (map (fun r : rel => fst (fst r)) rels); [exact Names|].
    transitivity (map (fun r : rel => fst (fst r)) (map shape (s_targets s))); [rewrite Sh, map_map; reflexivity|rewrite map_map; reflexivity].
  Qed.
  Lemma target_rel : forall t, In t (s_targets s) -> exists r, In r rels /\ shape t = placed project r.
  Proof. intros t I. apply (in_map shape) in I. rewrite Sh in I. apply in_map_iff in I as (r & E & I). exists r. auto. Qed.
  Lemma rel_target : forall r, In r rels -> exists t, In t (s_targets s) /\ shape t = placed project r.
  Proof. intros r I. apply (in_map (placed project)) in I. rewrite <- Sh in I. apply in_map_iff in I as (t & E & I). exists t. auto. Qed.
  Lemma compiled_rel : forall p t, compiled s (project ++ $"/" ++ p) t -> exists r, In r rels /\ shape t = placed project r /\ In p (snd r).
  Proof.
    intros p t [I J]. destruct (target_rel t I) as (r & Ir & E). exists r. split; [exact Ir|]. split; [exact E|].
    assert (X : t_sources t = map (fun p => project ++ $"/" ++ p) (snd r)) by exact (f_equal snd E). rewrite X in J. apply in_map_iff in J as (q' & Eq & J).
    apply app_inv_head, app_inv_head in Eq. subst q'. exact J.
  Qed.
  Lemma builds_libraries : forall x, In ($"lib/" ++ x) sources ->
    exists t, compiled s (project ++ $"/lib/" ++ x) t /\ t_kind t = Static /\ In (t_name t) libraries /\ forall t', compiled s (project ++ $"/lib/" ++ x) t' -> t' = t.
  Proof.
    intros x I. unfold checks_libraries in Libs. rewrite !andb_true_iff in Libs. destruct Libs as [[L _] _]. rewrite forallb_forall in L. specialize (L _ I).
    change (in_lib ($"lib/" ++ x)) with true in L. cbn [negb orb] in L. destruct (filter (fun r : rel => listed_there (snd r) ($"lib/" ++ x)) rels) as [|r [|? ?]] eqn:Fi; [discriminate| |discriminate].
    apply andb_true_iff in L as [K B]. apply there_in in B.
    assert (Ir : In r rels /\ listed_there (snd r) ($"lib/" ++ x) = true) by (apply (filter_In (fun r : rel => listed_there (snd r) ($"lib/" ++ x))); rewrite Fi; left; reflexivity).
    destruct Ir as [Ir Hr]. apply there_in in Hr. destruct (rel_target r Ir) as (t & It & E). exists t.
    assert (En : t_name t = fst (fst r)) by exact (f_equal (fun r => fst (fst r)) E). assert (Ek : t_kind t = snd (fst r)) by exact (f_equal (fun r => snd (fst r)) E).
    assert (Es : t_sources t = map (fun p => project ++ $"/" ++ p) (snd r)) by exact (f_equal snd E).
    split; [split; [exact It|rewrite Es; exact (in_map (fun p => project ++ $"/" ++ p) _ _ Hr)]|]. split; [rewrite Ek; unfold is_static in K; destruct (snd (fst r)); (discriminate || reflexivity)|].
    split; [rewrite En; exact B|]. intros t' C. destruct (compiled_rel ($"lib/" ++ x) t' C) as (r' & Ir' & E' & J').
    assert (X : In r' [r]) by (rewrite <- Fi; apply filter_In; split; [exact Ir'|apply there_in, J']). destruct X as [<-|[]].
    apply (same_name (s_targets s)); [exact shape_names|exact (proj1 C)|exact It|]. rewrite En. exact (f_equal (fun r => fst (fst r)) E').
  Qed.
  Lemma builds_each : forall n, In n libraries -> exists t, In t (s_targets s) /\ t_name t = n /\ t_kind t = Static.
  Proof.
    intros n I. unfold checks_libraries in Libs. rewrite !andb_true_iff in Libs. destruct Libs as [[_ L] _]. rewrite forallb_forall in L. specialize (L _ I).
    apply existsb_exists in L as (r & Ir & L). apply andb_true_iff in L as [K E]. apply str_eqb_eq in E. destruct (rel_target r Ir) as (t & It & Et). exists t. split; [exact It|].
    split; [rewrite <- E; exact (f_equal (fun r => fst (fst r)) Et)|]. assert (Ek : t_kind t = snd (fst r)) by exact (f_equal (fun r => snd (fst r)) Et).
    rewrite Ek. unfold is_static in K. destruct (snd (fst r)); (discriminate || reflexivity).
  Qed.
  Lemma builds_ours : forall t x, compiled s x t -> exists p, In p sources /\ x = project ++ $"/" ++ p.
  Proof.
    intros t x [I J]. destruct (target_rel t I) as (r & Ir & E). assert (X : t_sources t = map (fun p => project ++ $"/" ++ p) (snd r)) by exact (f_equal snd E).
    rewrite X in J. apply in_map_iff in J as (p & <- & J). exists p. split; [|reflexivity].
    unfold checks_libraries in Libs. rewrite !andb_true_iff in Libs. destruct Libs as [_ L]. rewrite forallb_forall in L. specialize (L _ Ir).
    rewrite forallb_forall in L. apply there_in, L, J.
  Qed.
  Lemma builds_no_test : checks_no_tests rels = true -> forall n t, ~ compiled s (project ++ $"/test/" ++ n) t.
  Proof.
    intros C n t Co. destruct (compiled_rel ($"test/" ++ n) t Co) as (r & Ir & _ & J). unfold checks_no_tests in C. rewrite forallb_forall in C. specialize (C _ Ir).
    rewrite forallb_forall in C. specialize (C _ J). change (in_test ($"test/" ++ n)) with true in C. discriminate.
  Qed.
End Shapes.
Definition rlib (n : str) (srcs : list str) : rel := (n, Static, map (fun x => $"lib/" ++ x) srcs).
Definition rtest (n : str) : rel := (n, Executable, [$"test/" ++ n ++ $".cpp"]).
Lemma shape_lib : forall project n srcs, Forall name_like srcs -> shape (static_library (project ++ $"/lib") n srcs) = placed project (rlib n srcs).
Proof.
  intros project n srcs L. unfold shape, placed, rlib, static_library. cbn [t_name t_kind t_sources fst snd]. f_equal. rewrite map_map. apply map_ext_in. intros x I.
  rewrite Forall_forall in L. rewrite join_name by exact (L x I). rewrite <- app_assoc. reflexivity.
Qed.
Lemma shape_exe : forall project n srcs links, Forall name_like srcs -> shape (exe project n srcs links) = placed project (n, Executable, srcs).
Proof.
  intros project n srcs links L. unfold shape, placed, exe. cbn [t_name t_kind t_sources fst snd]. f_equal. apply map_ext_in. intros x I.
  rewrite Forall_forall in L. rewrite join_name by exact (L x I). reflexivity.
Qed.
Lemma shape_test : forall project n links w, name_like n -> shape (test_of links w (project ++ $"/test") n) = placed project (rtest n).
Proof.
  intros project n links w N. unfold shape, placed, rtest, test_of, exe. cbn [t_name t_kind t_sources fst snd map]. do 2 f_equal.
  rewrite join_name; [rewrite <- app_assoc; reflexivity|]. destruct N as [N L]. split; [intros E; apply app_eq_nil in E as [E _]; exact (N E)|]. apply Forall_app. split; [exact L|]. repeat constructor.
Qed.
Lemma shape_linked : forall libs t, shape (linked libs t) = shape t.
Proof. reflexivity. Qed.
Lemma shape_linking : forall n libs ts, map shape (linking n libs ts) = map shape ts.
Proof. intros n libs ts. unfold linking. rewrite map_map. apply map_ext. intros t. destruct (str_eqb _ _); reflexivity. Qed.

(** ** The texts *)
Definition test_calls (ns : list str) : list command := map reporter_test_call ns.
Definition all_links : list argument := [u $"${GTEST_LIBS}"; u $"${PROFILE_RT_LIBS}"; u $"${CLANG_LIBRARIES}"; u $"${REQ_LLVM_LIBRARIES}"].
Definition dl_link : list argument := [u $"${CMAKE_DL_LIBS}"].
Definition tests_part : list command := [cmd $"if" [u $"TEST_BUILD"]; cmd $"add_subdirectory" [u $"test"]; cmd $"endif" []].

Definition core_names : list str := [$"OCLintCore"; $"OCLintRuleSet"].
Definition core_sources_of : list str :=
  [$"AbstractResults.cpp"; $"Constants.cpp"; $"ResultCollector.cpp"; $"UniqueResults.cpp"; $"RawResults.cpp"; $"RuleBase.cpp"; $"RuleCarrier.cpp"; $"Violation.cpp"; $"ViolationSet.cpp"].
Definition ruleset_sources_of : list str := [$"RuleConfiguration.cpp"; $"RuleSet.cpp"].
Definition core_links : list argument := [u $"OCLintRuleSet"; u $"OCLintCore"] ++ all_links ++ dl_link.
Definition core_tests_1 : list str :=
  [$"CanaryTest"; $"RawResultsTest"; $"ResultCollectorTest"; $"RuleBaseTest"; $"RuleCarrierTest"; $"RuleConfigurationTest"; $"RuleSetTest"; $"UniqueResultsTest"].
Definition core_tests_2 : list str := [$"VersionTest"; $"ViolationSetTest"; $"ViolationTest"].
Definition core_root : list command :=
  module_head $"OCLINT_CORE" ++ [cmd $"include_directories" [u $"${CMAKE_CURRENT_SOURCE_DIR}/include"]; cmd $"add_subdirectory" [u $"lib"]] ++ tests_part.
Lemma core_texts :
  commands_in (text_of core_lists $"CMakeLists.txt") = Some core_root
  /\ commands_in (text_of core_lists $"lib/CMakeLists.txt")
     = Some [cmd $"add_library" (map u ($"OCLintCore" :: core_sources_of)); cmd $"add_library" (map u ($"OCLintRuleSet" :: ruleset_sources_of))]
  /\ commands_in (text_of core_lists $"test/CMakeLists.txt")
     = Some (build_test_macro core_links ++ test_calls core_tests_1 ++ cmd $"target_link_libraries" [u $"RuleSetTest"; u $"OCLintRuleSet"] :: test_calls core_tests_2).
Proof. split; [|split]; vm_compute; reflexivity. Qed.

Definition metrics_sources_of : list str := [$"CyclomaticComplexityMetric.cpp"; $"NcssMetric.cpp"; $"NPathComplexityMetric.cpp"; $"StmtDepthMetric.cpp"].
Definition metrics_links : list argument := [u $"OCLintMetric"] ++ all_links ++ dl_link.
Definition metrics_tests : list str := [$"CanaryTest"; $"CyclomaticComplexityMetricTest"; $"NPathComplexityMetricTest"; $"NcssMetricTest"; $"StmtDepthMetricTest"].
Definition metrics_root : list command :=
  module_head $"OCLINT_METRICS" ++ [cmd $"include_directories" [u $"${OCLINT_METRICS_SOURCE_DIR}/include"]; cmd $"add_subdirectory" [u $"lib"];
    cmd $"if" [u $"TEST_BUILD"]; cmd $"include_directories" [u $"${OCLINT_METRICS_SOURCE_DIR}/test/headers"]; cmd $"add_subdirectory" [u $"test"]; cmd $"endif" []].
Lemma metrics_texts :
  commands_in (text_of metrics_lists $"CMakeLists.txt") = Some metrics_root
  /\ commands_in (text_of metrics_lists $"lib/CMakeLists.txt")
     = Some [cmd $"set" (map u ($"MetricSource" :: metrics_sources_of)); cmd $"add_library" [u $"OCLintMetric"; u $"${MetricSource}"]]
  /\ commands_in (text_of metrics_lists $"test/CMakeLists.txt") = Some (build_test_macro metrics_links ++ test_calls metrics_tests).
Proof. split; [|split]; vm_compute; reflexivity. Qed.

Definition driver_sources_of : list str :=
  [$"CompilerInstance.cpp"; $"ConfigFile.cpp"; $"DiagnosticDispatcher.cpp"; $"Driver.cpp"; $"GenericException.cpp"; $"Logger.cpp"; $"Options.cpp"; $"RulesetBasedAnalyzer.cpp"; $"RulesetFilter.cpp"].
Definition analyzer_links : list argument :=
  map u [$"OCLintDriver"; $"OCLintRuleSet"; $"OCLintCore"; $"clangStaticAnalyzerFrontend"; $"clangStaticAnalyzerCheckers"; $"clangStaticAnalyzerCore"; $"clangRewriteFrontend"; $"clangRewrite"].
Definition driver_test_links : list argument := analyzer_links ++ all_links.
Definition llvm_links : list argument := [u $"${CLANG_LIBRARIES}"; u $"${REQ_LLVM_LIBRARIES}"; u $"${CMAKE_DL_LIBS}"].
Definition program_links : list argument := analyzer_links ++ map u [$"clangCrossTU"; $"clangIndex"] ++ llvm_links.
Definition docgen_links : list argument := analyzer_links ++ llvm_links.
Definition program_files : list str := [$"main.cpp"; $"reporters_dlfcn_port.cpp"; $"rules_dlfcn_port.cpp"].
Definition docgen_files : list str := [$"main_docgen.cpp"; $"rules_dlfcn_port.cpp"].
Definition versioned : argument := u $"oclint-${OCLINT_VERSION_RELEASE}".
Definition driver_root : list command :=
  module_head $"OCLINT_DRIVER" ++
  [cmd $"include_directories" [u $"${OCLINT_SOURCE_DIR}/include"]; cmd $"link_directories" [u $"${OCLINT_BUILD_DIR}/lib"];
   cmd $"include_directories" [u $"${OCLINT_DRIVER_SOURCE_DIR}/include"]; cmd $"add_subdirectory" [u $"lib"];
   cmd $"add_executable" (versioned :: map u program_files); cmd $"target_link_libraries" (versioned :: program_links);
   cmd $"if" [u $"TEST_BUILD"]; cmd $"target_link_libraries" [versioned; u $"${PROFILE_RT_LIBS}"]; cmd $"add_subdirectory" [u $"test"]; cmd $"endif" [];
   cmd $"if" [u $"DOC_GEN_BUILD"]; cmd $"add_executable" (u $"oclint-docgen" :: map u docgen_files); cmd $"target_link_libraries" (u $"oclint-docgen" :: docgen_links); cmd $"endif" []].
Lemma driver_texts :
  commands_in (text_of driver_lists $"CMakeLists.txt") = Some driver_root
  /\ commands_in (text_of driver_lists $"lib/CMakeLists.txt") = Some [cmd $"add_library" (map u ($"OCLintDriver" :: driver_sources_of))]
  /\ commands_in (text_of driver_lists $"test/CMakeLists.txt") = Some (build_test_macro driver_test_links ++ test_calls [$"RulesetFilterTest"]).
Proof. split; [|split]; vm_compute; reflexivity. Qed.

(** ** Links *)
Lemma plain_values_app : forall v a b, plain_values v (a ++ b) = plain_values v a ++ plain_values v b.
Proof. intros v a b. unfold plain_values, values. rewrite flat_map_app, map_app. reflexivity. Qed.
Lemma plain_values_in : forall v l x a, In a l -> In x (plain_values v [a]) -> In x (plain_values v l).
Proof.
  intros v l x a I J. apply in_split in I as (l1 & l2 & ->). change (a :: l2) with ([a] ++ l2). rewrite !plain_values_app. apply in_or_app. right. apply in_or_app. left. exact J.
Qed.
Lemma plain_listed : forall v k t, t = {| a_quoted := false; a_text := [Ref k] |} -> plain_values v [t] = listed_in v k.
Proof. intros v k t ->. unfold plain_values. rewrite values_list. apply app_nil_r. Qed.
Lemma plain_literals : forall v l, forallb (fun t => forallb (fun c => negb (ascii_eqb c "$"%char)) t && forallb (fun c => negb (ascii_eqb c ";"%char)) t && negb (is_nil t)) l = true ->
  plain_values v (map u l) = l.
Proof.
  intros v l. induction l as [|t l IH]; intros H; [reflexivity|]. cbn [forallb] in H. apply andb_true_iff in H as [T H]. rewrite !andb_true_iff in T. destruct T as [[A B] N].
  unfold plain_values. cbn [map]. rewrite values_ulit; [|exact A|exact B|intros ->; discriminate]. cbn [map snd]. f_equal. apply IH, H.
Qed.

Section Modules.
  Variables (F : files) (binary : str) (config : variables -> option variables) (project : str).
  Notation steps := (steps F binary config).
  Variables given v : variables.
  Hypothesis no_modules : given $"CMAKE_MODULE_PATH" = None.
  Hypothesis Sb : no_semicolon binary.
  Variable out : str.
  Hypothesis Out : v $"EXECUTABLE_OUTPUT_PATH" = Some out.
  Hypothesis Ho : no_semicolon out.
  Definition value (k : str) : str := match v k with Some x => x | None => [] end.
  Lemma st_variable : forall dir k a rest b s s1 s2, s_vars s = v -> true_constant k = false -> false_constant k = false -> branches 0 rest = Some b ->
    values v [a] = [(false, k)] ->
    steps dir (if false_constant (value k) then i_else b else i_then b) s s1 -> steps dir (i_rest b) s1 s2 -> steps dir (cmd $"if" [a] :: rest) s s2.
  Proof.
    intros dir k a rest b s s1 s2 V T Fa B A R1 R2. eapply (steps_if _ _ _ dir _ rest b (negb (false_constant (value k)))); [reflexivity|exact B| | |exact R2].
    - cbn [c_args cmd]. rewrite V, A. unfold condition. rewrite T, Fa. unfold value. destruct (v k); reflexivity.
    - destruct (false_constant (value k)); exact R1.
  Qed.
  Lemma st_directory : forall n rest text l ms ts te ds rs ms1 ts1 te1 ds1 w1 s2, name_like n -> ds = map (app project) rs -> existsb (str_eqb ($"/" ++ n)) rs = false ->
    F (project ++ $"/" ++ n ++ $"/CMakeLists.txt") = Some text -> commands_in text = Some l ->
    steps (project ++ $"/" ++ n) l (St (assign v current (Some (project ++ $"/" ++ n))) ms ts te (ds ++ [project ++ $"/" ++ n])) (St w1 ms1 ts1 te1 ds1) ->
    steps project rest (St v ms1 ts1 te1 ds1) s2 -> steps project (cmd $"add_subdirectory" [u n] :: rest) (St v ms ts te ds) s2.
  Proof.
    intros n rest text l ms ts te ds rs ms1 ts1 te1 ds1 w1 s2 N D E T C R1 R2. rewrite <- (app_nil_r project) at 1.
    eapply (step_subdirectory F binary config project [] n rest text l _ rs); [exact N|exact D|exact E|exact T|exact C|exact R1|rewrite app_nil_r; exact R2].
  Qed.
  Lemma st_tests : forall links ns1 rest ts te ds s2, free links = true -> Forall name_like ns1 -> NoDup (map t_name ts ++ ns1) ->
    steps (project ++ $"/test") rest (St (assign v current (Some (project ++ $"/test"))) (build_test_macros links) (ts ++ map (test_of links v (project ++ $"/test")) ns1) (te ++ map (run_of out) ns1) ds) s2 ->
    steps (project ++ $"/test") (build_test_macro links ++ test_calls ns1 ++ rest) (St (assign v current (Some (project ++ $"/test"))) [] ts te ds) s2.
  Proof.
    intros links ns1 rest ts te ds s2 Fr L Nd R. unfold build_test_macro. cbn [app build_test_body].
    eapply (steps_macro _ _ _ _ _ _ (build_test_body links) _ $"build_test" [$"name"]); [reflexivity|reflexivity| |].
    { unfold plain_values. cbn [c_args cmd]. rewrite !values_ulit by (reflexivity || discriminate). reflexivity. }
    exact (tests_then F binary config links Fr out Ho v Out (project ++ $"/test") ns1 rest ts te ds s2 L Nd R).
  Qed.
  Lemma st_static : forall dir n k srcs args rest w ts te ds s2, is_target n ts = false -> plain_values w args = n :: k :: srcs ->
    existsb (str_eqb k) [$"SHARED"; $"STATIC"; $"MODULE"; $"OBJECT"; $"INTERFACE"; $"ALIAS"; $"UNKNOWN"] = false ->
    steps dir rest (St w [] (ts ++ [static_library dir n (k :: srcs)]) te ds) s2 -> steps dir (cmd $"add_library" args :: rest) (St w [] ts te ds) s2.
  Proof. intros dir n k srcs args rest w ts te ds s2 T A K R. exact (step_static F binary config dir n k srcs args rest (St w [] ts te ds) s2 eq_refl T A K R). Qed.
  Lemma st_nothing : forall dir n args rest w ms ts te ds s2, In n [$"cmake_minimum_required"; $"include_directories"; $"link_directories"] -> missing n ms ->
    steps dir rest (St w ms ts te ds) s2 -> steps dir (cmd n args :: rest) (St w ms ts te ds) s2.
  Proof.
    intros dir n args rest w ms ts te ds s2 I M R. eapply steps_builtin; [|exact M|apply builtin_nothing, I|exact R].
    cbn [In] in I. destruct I as [<-|[<-|[<-|[]]]]; reflexivity.
  Qed.
  Lemma names_ok : forall l, forallb (fun n => negb (is_nil n) && forallb name_char n) l = true -> Forall name_like l.
  Proof.
    intros l H. apply Forall_forall. intros n I. rewrite forallb_forall in H. specialize (H n I). apply andb_true_iff in H as [N C]. split; [intros ->; discriminate|apply checked, C].
  Qed.
  Lemma nodup_ok : forall l : list str, nodup (list_eq_dec ascii_dec) l = l -> NoDup l.
  Proof. intros l <-. apply NoDup_nodup. Qed.
  Lemma if_test : values v [u $"TEST_BUILD"] = [(false, $"TEST_BUILD")].
  Proof. rewrite values_ulit by (reflexivity || discriminate). reflexivity. Qed.
  Notation tests := (negb (false_constant (value $"TEST_BUILD"))).

  Definition core_libs : list target := [static_library (project ++ $"/lib") $"OCLintCore" core_sources_of; static_library (project ++ $"/lib") $"OCLintRuleSet" ruleset_sources_of].
  Notation test_at links := (test_of links v (project ++ $"/test")).
  Definition core_targets (tests : bool) : list target :=
    if tests then linking $"RuleSetTest" [$"OCLintRuleSet"] (core_libs ++ map (test_at core_links) core_tests_1) ++ map (test_at core_links) core_tests_2 else core_libs.
  Definition runs (tests : bool) (ns : list str) : list (str * list str) := if tests then map (run_of out) ns else [].
  Lemma core_run : config (at_include $"OCLINT_CORE" project binary given) = Some v ->
    (forall p t, In (p, t) core_lists -> F (project ++ $"/" ++ p) = Some t) ->
    exists ms ds, steps project core_root (initial project given) (St v ms (core_targets tests) (runs tests (core_tests_1 ++ core_tests_2)) ds).
  Proof.
    intros Config Lists. destruct core_texts as (_ & Tl & Tt).
    assert (Fl : F (project ++ $"/lib/CMakeLists.txt") = Some (text_of core_lists $"lib/CMakeLists.txt")) by (apply (Lists $"lib/CMakeLists.txt"); cbn; auto).
    assert (Ft : F (project ++ $"/test/CMakeLists.txt") = Some (text_of core_lists $"test/CMakeLists.txt")) by (apply (Lists $"test/CMakeLists.txt"); cbn; auto).
    revert Fl Ft Tl Tt. generalize (text_of core_lists $"lib/CMakeLists.txt") (text_of core_lists $"test/CMakeLists.txt"). intros tl tt Fl Ft Tl Tt.
    exists (if tests then build_test_macros core_links else []), (if tests then [project ++ $"/lib"; project ++ $"/test"] else [project ++ $"/lib"]).
    unfold core_root. apply (module_head_run F binary config project $"OCLINT_CORE" given v); [split; [discriminate|apply checked; reflexivity]|reflexivity|reflexivity|exact Config|exact no_modules|].
    change (start_state v) with (St v [] [] [] []). cbn [app]. apply st_nothing; [cbn; auto|reflexivity|].
    eapply (st_directory $"lib" _ tl _ [] [] [] [] [] [] core_libs [] [project ++ $"/lib"]); [split; [discriminate|apply checked; reflexivity]|reflexivity|reflexivity|exact Fl|exact Tl| |].
    { eapply (st_static _ $"OCLintCore"); [reflexivity|apply plain_literals; reflexivity|reflexivity|].
      eapply (st_static _ $"OCLintRuleSet"); [reflexivity|apply plain_literals; reflexivity|reflexivity|]. apply steps_nil. }
    eapply (st_variable project $"TEST_BUILD"); [reflexivity|reflexivity|reflexivity|reflexivity|exact if_test| |].
    2:{ cbn [i_rest]. apply steps_nil. }
    cbn [i_then i_else]. destruct (false_constant (value $"TEST_BUILD")); cbn [negb core_targets runs]; [apply steps_nil|].
    eapply (st_directory $"test" [] tt _ [] core_libs [] [project ++ $"/lib"] [$"/lib"]); [split; [discriminate|apply checked; reflexivity]|reflexivity|reflexivity|exact Ft|exact Tt| |apply steps_nil].
    apply st_tests; [reflexivity|apply names_ok; reflexivity|apply nodup_ok; vm_compute; reflexivity|].
    eapply (st_link _ _ _ _ $"RuleSetTest" [$"OCLintRuleSet"]); [reflexivity|reflexivity|apply (plain_literals _ [$"RuleSetTest"; $"OCLintRuleSet"]); reflexivity|].
    rewrite <- (app_nil_r (test_calls core_tests_2)). apply (tests_then F binary config core_links eq_refl out Ho v Out (project ++ $"/test") core_tests_2); [apply names_ok; reflexivity|apply nodup_ok; vm_compute; reflexivity|].
    rewrite map_app. apply steps_nil.
  Qed.

  Definition metrics_libs : list target := [static_library (project ++ $"/lib") $"OCLintMetric" metrics_sources_of].
  Definition metrics_targets (tests : bool) : list target := metrics_libs ++ if tests then map (test_at metrics_links) metrics_tests else [].
  Lemma metrics_run : config (at_include $"OCLINT_METRICS" project binary given) = Some v ->
    (forall p t, In (p, t) metrics_lists -> F (project ++ $"/" ++ p) = Some t) ->
    exists ms ds, steps project metrics_root (initial project given) (St v ms (metrics_targets tests) (runs tests metrics_tests) ds).
  Proof.
    intros Config Lists. destruct metrics_texts as (_ & Tl & Tt).
    assert (Fl : F (project ++ $"/lib/CMakeLists.txt") = Some (text_of metrics_lists $"lib/CMakeLists.txt")) by (apply (Lists $"lib/CMakeLists.txt"); cbn; auto).
    assert (Ft : F (project ++ $"/test/CMakeLists.txt") = Some (text_of metrics_lists $"test/CMakeLists.txt")) by (apply (Lists $"test/CMakeLists.txt"); cbn; auto).
    revert Fl Ft Tl Tt. generalize (text_of metrics_lists $"lib/CMakeLists.txt") (text_of metrics_lists $"test/CMakeLists.txt"). intros tl tt Fl Ft Tl Tt.
    exists (if tests then build_test_macros metrics_links else []), (if tests then [project ++ $"/lib"; project ++ $"/test"] else [project ++ $"/lib"]).
    unfold metrics_root. apply (module_head_run F binary config project $"OCLINT_METRICS" given v); [split; [discriminate|apply checked; reflexivity]|reflexivity|reflexivity|exact Config|exact no_modules|].
    change (start_state v) with (St v [] [] [] []). cbn [app]. apply st_nothing; [cbn; auto|reflexivity|].
    eapply (st_directory $"lib" _ tl _ [] [] [] [] [] [] metrics_libs [] [project ++ $"/lib"]); [split; [discriminate|apply checked; reflexivity]|reflexivity|reflexivity|exact Fl|exact Tl| |].
    { eapply steps_builtin; [reflexivity|reflexivity| |].
      { eapply (builtin_set _ _ _ _ _ $"MetricSource" $"CyclomaticComplexityMetric.cpp" (List.tl metrics_sources_of)); [reflexivity| |reflexivity]. apply plain_literals. reflexivity. }
      eapply (st_static _ $"OCLintMetric"); [reflexivity| | |apply steps_nil].
      - unfold plain_values. rewrite (values_u _ _ $"OCLintMetric") by side. reflexivity.
      - reflexivity. }
    eapply (st_variable project $"TEST_BUILD"); [reflexivity|reflexivity|reflexivity|reflexivity|exact if_test| |].
    2:{ cbn [i_rest]. apply steps_nil. }
    cbn [i_then i_else]. unfold metrics_targets. destruct (false_constant (value $"TEST_BUILD")); cbn [negb runs]; [apply steps_nil|].
    apply st_nothing; [cbn; auto|reflexivity|].
    eapply (st_directory $"test" [] tt _ [] metrics_libs [] [project ++ $"/lib"] [$"/lib"]); [split; [discriminate|apply checked; reflexivity]|reflexivity|reflexivity|exact Ft|exact Tt| |apply steps_nil].
    rewrite <- (app_nil_r (test_calls metrics_tests)). apply st_tests; [reflexivity|apply names_ok; reflexivity|apply nodup_ok; vm_compute; reflexivity|]. apply steps_nil.
  Qed.

  Definition program_name : str := $"oclint-26.02".
  Definition driver_lib : target := static_library (project ++ $"/lib") $"OCLintDriver" driver_sources_of.
  Definition driver_targets (tests docs : bool) : list target :=
    ([driver_lib; exe project program_name program_files (plain_values v program_links ++ if tests then listed_in v $"PROFILE_RT_LIBS" else [])]
     ++ if tests then [test_at driver_test_links $"RulesetFilterTest"] else [])
    ++ if docs then [exe project $"oclint-docgen" docgen_files (plain_values v docgen_links)] else [].
  Notation docs := (negb (false_constant (value $"DOC_GEN_BUILD"))).
  Lemma driver_run : config (at_include $"OCLINT_DRIVER" project binary given) = Some v -> v $"OCLINT_VERSION_RELEASE" = Some $"26.02" ->
    (forall p t, In (p, t) driver_lists -> F (project ++ $"/" ++ p) = Some t) ->
    exists ms ds, steps project driver_root (initial project given) (St v ms (driver_targets tests docs) (runs tests [$"RulesetFilterTest"]) ds).
  Proof.
    intros Config Version Lists. destruct driver_texts as (_ & Tl & Tt).
    assert (Fl : F (project ++ $"/lib/CMakeLists.txt") = Some (text_of driver_lists $"lib/CMakeLists.txt")) by (apply (Lists $"lib/CMakeLists.txt"); cbn; auto).
    assert (Ft : F (project ++ $"/test/CMakeLists.txt") = Some (text_of driver_lists $"test/CMakeLists.txt")) by (apply (Lists $"test/CMakeLists.txt"); cbn; auto).
    revert Fl Ft Tl Tt. generalize (text_of driver_lists $"lib/CMakeLists.txt") (text_of driver_lists $"test/CMakeLists.txt"). intros tl tt Fl Ft Tl Tt.
    exists (if tests then build_test_macros driver_test_links else []), (if tests then [project ++ $"/lib"; project ++ $"/test"] else [project ++ $"/lib"]).
    assert (Vv : val v $"oclint-${OCLINT_VERSION_RELEASE}" = program_name).
    { change (val v $"oclint-${OCLINT_VERSION_RELEASE}") with ($"oclint-" ++ match v $"OCLINT_VERSION_RELEASE" with Some x => x | None => [] end ++ []). rewrite Version. reflexivity. }
    assert (Pv : forall l, plain_values v (versioned :: l) = program_name :: plain_values v l).
    { intros l. unfold plain_values, versioned. rewrite (values_u v _ program_name); [reflexivity|exact Vv|apply semicolon_check; reflexivity|discriminate]. }
    unfold driver_root. apply (module_head_run F binary config project $"OCLINT_DRIVER" given v); [split; [discriminate|apply checked; reflexivity]|reflexivity|reflexivity|exact Config|exact no_modules|].
    change (start_state v) with (St v [] [] [] []). cbn [app]. apply st_nothing; [cbn; auto|reflexivity|]. apply st_nothing; [cbn; auto|reflexivity|]. apply st_nothing; [cbn; auto|reflexivity|].
    eapply (st_directory $"lib" _ tl _ [] [] [] [] [] [] [driver_lib] [] [project ++ $"/lib"]); [split; [discriminate|apply checked; reflexivity]|reflexivity|reflexivity|exact Fl|exact Tl| |].
    { eapply (st_static _ $"OCLintDriver"); [reflexivity|apply plain_literals; reflexivity|reflexivity|]. apply steps_nil. }
    apply (st_exe _ _ _ project program_name program_files); [reflexivity|reflexivity|rewrite Pv; f_equal; apply plain_literals; reflexivity|].
    apply (st_link_last _ _ _ project program_name (plain_values v program_links)); [reflexivity|reflexivity|reflexivity|apply Pv|].
    set (ts := ([driver_lib; exe project program_name program_files (plain_values v program_links ++ if tests then listed_in v $"PROFILE_RT_LIBS" else [])]
     ++ if tests then [test_at driver_test_links $"RulesetFilterTest"] else [])).
    eapply (st_variable project $"TEST_BUILD" _ _ _ _ (St v (if tests then build_test_macros driver_test_links else []) ts (runs tests [$"RulesetFilterTest"])
              (if tests then [project ++ $"/lib"; project ++ $"/test"] else [project ++ $"/lib"]))); [reflexivity|reflexivity|reflexivity|reflexivity|exact if_test| |].
    { cbn [i_then i_else]. unfold ts. destruct (false_constant (value $"TEST_BUILD")); cbn [negb runs].
      { rewrite !app_nil_r. apply steps_nil. }
      apply (st_link_last _ _ _ project program_name (listed_in v $"PROFILE_RT_LIBS")); [reflexivity|reflexivity|reflexivity|rewrite Pv; f_equal; apply plain_listed; reflexivity|].
      eapply (st_directory $"test" [] tt _ [] _ [] [project ++ $"/lib"] [$"/lib"]); [split; [discriminate|apply checked; reflexivity]|reflexivity|reflexivity|exact Ft|exact Tt| |apply steps_nil].
      rewrite <- (app_nil_r (test_calls [$"RulesetFilterTest"])). apply st_tests; [reflexivity|apply names_ok; reflexivity|apply nodup_ok; vm_compute; reflexivity|]. apply steps_nil. }
    cbn [i_rest].
    eapply (st_variable project $"DOC_GEN_BUILD"); [reflexivity|reflexivity|reflexivity|reflexivity|rewrite values_ulit by (reflexivity || discriminate); reflexivity| |].
    2:{ cbn [i_rest]. apply steps_nil. }
    cbn [i_then i_else]. unfold driver_targets. fold ts. destruct (false_constant (value $"DOC_GEN_BUILD")); cbn [negb].
    { rewrite app_nil_r. apply steps_nil. }
    assert (Fr : is_target $"oclint-docgen" ts = false) by (unfold ts; destruct (false_constant (value $"TEST_BUILD")); reflexivity).
    assert (Ms : forall k, In k [$"add_executable"; $"target_link_libraries"] -> missing k (if tests then build_test_macros driver_test_links else [])).
    { intros k I. destruct (false_constant (value $"TEST_BUILD")); cbn [negb]; cbn [In] in I; destruct I as [<-|[<-|[]]]; reflexivity. }
    apply (st_exe _ _ _ project $"oclint-docgen" docgen_files); [apply Ms; cbn; auto|exact Fr|apply (plain_literals v ($"oclint-docgen" :: docgen_files)); reflexivity|].
    apply (st_link_last _ _ _ project $"oclint-docgen" (plain_values v docgen_links)); [apply Ms; cbn; auto|exact Fr|reflexivity| |apply steps_nil].
    unfold plain_values. rewrite values_ulit by (reflexivity || discriminate). reflexivity.
  Qed.
End Modules.
