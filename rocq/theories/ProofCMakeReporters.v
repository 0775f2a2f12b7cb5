(** * The build files of the reporters: lemmas for C148 *)
From Verif Require Import Base BaseFacts ModelScaffold ModelCMake ModelCMakeTexts SpecCMake ProofCMake ProofCMakeRules ProofCMakeRoot ProofCMakeTests.

(** ** The beginning all modules share *)
Definition modules_from (module : str) : str := if str_eqb module $"OCLINT_CORE" then $"/cmake" else $"/../oclint-core/cmake".
Definition module_head (module : str) : list command :=
  [cmd $"cmake_minimum_required" [u $"VERSION"; u $"3.20"]; cmd $"project" [u module];
   cmd $"set" [u $"CMAKE_MODULE_PATH"; u $"${CMAKE_MODULE_PATH}"; q ($"${CMAKE_CURRENT_SOURCE_DIR}" ++ modules_from module)];
   cmd $"include" [u $"OCLintConfig"]].
Definition start_state (v : variables) : cstate := {| s_vars := v; s_macros := []; s_targets := []; s_tests := []; s_dirs := [] |}.
Lemma module_head_run : forall F binary config project module given v, name_like module -> str_eqb $"CMAKE_MODULE_PATH" (module ++ $"_SOURCE_DIR") = false ->
  str_eqb current (module ++ $"_SOURCE_DIR") = false ->
  config (at_include module project binary given) = Some v -> given $"CMAKE_MODULE_PATH" = None ->
  forall rest s2, steps F binary config project rest (start_state v) s2 ->
    steps F binary config project (module_head module ++ rest) (initial project given) s2.
Proof.
  intros F binary config project module given v Nm Sep Sep' Config no_modules.
  set (v0 := assign (assign (assign given current (Some project)) (module ++ $"_SOURCE_DIR") (Some project)) $"PROJECT_BINARY_DIR" (Some binary)).
  set (m := project ++ modules_from module).
  set (v1 := assign v0 $"CMAKE_MODULE_PATH" (Some (list_of [m]))).
  assert (Cv : config v1 = Some v).
  { rewrite <- Config. unfold v1. change (list_of [m]) with (m ++ []). rewrite app_nil_r. reflexivity. }
  intros rest s2 R. unfold module_head. cbn [app].
  eapply steps_builtin; [reflexivity|reflexivity|apply builtin_nothing; cbn; tauto|].
  eapply (steps_builtin _ _ _ _ _ _ _ (with_vars v0 (initial project given))); [reflexivity|reflexivity| |].
  { unfold builtin, plain_values. cbn [c_args cmd].
    rewrite (values_u _ _ module); [reflexivity| |apply names_no_semicolon, Nm|apply Nm].
    unfold val, segs. rewrite (segments_plain module (proj2 Nm)). apply expand_lit. }
  eapply (steps_builtin _ _ _ _ _ _ _ (with_vars v1 (initial project given))); [reflexivity|reflexivity| |].
  { assert (Mp : plain_values v0 [u $"CMAKE_MODULE_PATH"; u $"${CMAKE_MODULE_PATH}"; q ($"${CMAKE_CURRENT_SOURCE_DIR}" ++ modules_from module)]
                 = [$"CMAKE_MODULE_PATH"; m]).
    { unfold plain_values. rewrite values_ulit by (reflexivity || discriminate). cbn [map snd]. f_equal.
      replace (values _ _) with [(true, m)]; [reflexivity|].
      assert (Vq : val v0 ($"${CMAKE_CURRENT_SOURCE_DIR}" ++ modules_from module) = match v0 current with Some x => x | None => [] end ++ modules_from module)
        by (unfold modules_from; destruct (str_eqb module _); reflexivity).
      change (values _ _) with (map (pair false) (elements [] (match v0 $"CMAKE_MODULE_PATH" with Some x => x | None => [] end ++ []))
                                ++ [(true, val v0 ($"${CMAKE_CURRENT_SOURCE_DIR}" ++ modules_from module))]). rewrite Vq.
      replace (v0 $"CMAKE_MODULE_PATH") with (@None str).
      2:{ unfold v0, assign. rewrite Sep. change (str_eqb $"CMAKE_MODULE_PATH" $"PROJECT_BINARY_DIR") with false. change (str_eqb $"CMAKE_MODULE_PATH" current) with false. auto. }
      replace (v0 current) with (Some project); [reflexivity|].
      unfold v0, assign. rewrite Sep'. reflexivity. }
    rewrite (builtin_set _ _ _ _ _ $"CMAKE_MODULE_PATH" m []); [reflexivity|reflexivity|exact Mp|].
    cbn [existsb]. rewrite Bool.orb_false_r. apply Bool.orb_false_iff. unfold m. split; apply str_eqb_neq; intros E;
      apply (f_equal (fun l => existsb (ascii_eqb "/"%char) l)) in E; rewrite existsb_app in E;
      replace (existsb (ascii_eqb "/"%char) (modules_from module)) with true in E by (unfold modules_from; destruct (str_eqb module _); reflexivity);
      rewrite Bool.orb_true_r in E; discriminate. }
  eapply (steps_builtin _ _ _ _ _ _ _ (with_vars v (initial project given))); [reflexivity|reflexivity| |exact R].
  unfold builtin, plain_values. cbn [c_args cmd]. rewrite !values_ulit by (reflexivity || discriminate).
  change (s_vars (with_vars v1 (initial project given))) with v1. rewrite Cv. reflexivity.
Qed.

(** ** Libraries *)
Definition reporter_body : list command :=
  [cmd $"if" [u $"${CMAKE_SYSTEM_NAME}"; u $"MATCHES"; q $"Darwin"];
   cmd $"set" [u $"CMAKE_SHARED_LINKER_FLAGS"; q $"-undefined dynamic_lookup"];
   cmd $"endif" [];
   cmd $"add_library" [u $"${name}Reporter"; u $"SHARED"; u $"${name}Reporter.cpp"];
   cmd $"set_target_properties" [u $"${name}Reporter"; u $"PROPERTIES"; u $"LIBRARY_OUTPUT_DIRECTORY"; u $"${PROJECT_BINARY_DIR}/reporters.dl";
                                 u $"RUNTIME_OUTPUT_DIRECTORY"; u $"${PROJECT_BINARY_DIR}/reporters.dl"];
   cmd $"target_link_libraries" [u $"${name}Reporter"; u $"OCLintCore"]].
Definition reporter_call (n : str) : command := call $"build_dynamic_reporter" [n].
Definition reporters_head : list command :=
  [cmd $"macro" [u $"build_dynamic_reporter"; u $"name"]] ++ reporter_body ++ [cmd $"endmacro" [u $"build_dynamic_reporter"]].
Definition reporter_macros : list (str * (list str * list command)) := [($"build_dynamic_reporter", ([$"name"], reporter_body))].
Definition shipped_reporters : list str := [$"Text"; $"HTML"; $"XML"; $"JSON"; $"PMD"; $"Xcode"].
Definition reporter_library (B dir n : str) : target :=
  {| t_name := n ++ $"Reporter"; t_kind := Shared; t_sources := [join dir (n ++ $"Reporter.cpp")];
     t_properties := [($"LIBRARY_OUTPUT_DIRECTORY", B ++ $"/reporters.dl"); ($"RUNTIME_OUTPUT_DIRECTORY", B ++ $"/reporters.dl")];
     t_links := [$"OCLintCore"] |}.
(** ** Tests *)
Definition reporter_test_body : list command :=
  [cmd $"add_executable" [u $"${name}"; u $"${name}.cpp"];
   cmd $"target_link_libraries" [u $"${name}"; u $"${GTEST_LIBS}"; u $"${PROFILE_RT_LIBS}"; u $"${CLANG_LIBRARIES}"; u $"${REQ_LLVM_LIBRARIES}"; u $"OCLintCore"];
   cmd $"add_test" [u $"${name}"; u $"${EXECUTABLE_OUTPUT_PATH}/${name}"]].
Definition reporter_test_call (n : str) : command := call $"build_test" [n].
Definition reporter_tests_head : list command :=
  [cmd $"macro" [u $"build_test"; u $"name"]] ++ reporter_test_body ++ [cmd $"endmacro" [u $"build_test"]].
Definition reporter_test_macros : list (str * (list str * list command)) := [($"build_test", ([$"name"], reporter_test_body))].
Definition shipped_reporter_tests : list str := $"CanaryTest" :: map (fun n => n ++ $"ReporterTest") shipped_reporters.
Definition reporters_root : list command :=
  module_head $"OCLINT_REPORTERS" ++
  [cmd $"include_directories" [u $"${OCLINT_SOURCE_DIR}/include"]; cmd $"link_directories" [u $"${OCLINT_BUILD_DIR}/lib"];
   cmd $"if" [u $"TEST_BUILD"];
   cmd $"include_directories" [u $"${OCLINT_REPORTERS_SOURCE_DIR}/reporters"];
   cmd $"add_subdirectory" [u $"test"];
   cmd $"else" [u $"TEST_BUILD"];
   cmd $"add_subdirectory" [u $"reporters"];
   cmd $"endif" []].
Lemma reporters_texts :
  commands_in (text_of reporters_lists $"CMakeLists.txt") = Some reporters_root
  /\ commands_in (text_of reporters_lists $"reporters/CMakeLists.txt") = Some (reporters_head ++ map reporter_call shipped_reporters)
  /\ commands_in (text_of reporters_lists $"test/CMakeLists.txt") = Some (reporter_tests_head ++ map reporter_test_call shipped_reporter_tests).
Proof. split; [|split]; vm_compute; reflexivity. Qed.

Section Reporters.
  Variables (F : files) (binary : str) (config : variables -> option variables).
  Notation steps := (steps F binary config).
  Variable B : str.
  Hypothesis HB : no_semicolon B.

  Definition rep_setting (s : cstate) : Prop :=
    s_macros s = reporter_macros /\ s_vars s $"PROJECT_BINARY_DIR" = Some B
    /\ exists y, s_vars s $"CMAKE_SYSTEM_NAME" = Some y /\ no_semicolon y /\ y <> [].
  Lemma reporter_run : forall dir n s, name_like n -> rep_setting s -> is_target (n ++ $"Reporter") (s_targets s) = false ->
    exists s', adds [$"CMAKE_SHARED_LINKER_FLAGS"] s [reporter_library B dir n] s'
      /\ forall rest s2, steps dir rest s' s2 -> steps dir (reporter_call n :: rest) s s2.
  Proof.
    intros dir n s N (M & PB & y & Sy & Ny & Xy) Fr.
    pose proof N as [Nn Nc]. pose proof (names_no_semicolon n Nc) as Ns.
    set (b := bindings [$"name"] [n]).
    assert (Vals : forall v, v $"PROJECT_BINARY_DIR" = Some B ->
       val (over b v) $"${name}Reporter" = n ++ $"Reporter"
       /\ val (over b v) $"${name}Reporter.cpp" = n ++ $"Reporter.cpp" /\ val (over b v) $"${PROJECT_BINARY_DIR}/reporters.dl" = B ++ $"/reporters.dl").
    { intros v P. repeat split.
      change (match v $"PROJECT_BINARY_DIR" with Some x => x | None => [] end ++ $"/reporters.dl" = B ++ $"/reporters.dl"). rewrite P. reflexivity. }
    assert (Vy : val (over b (s_vars s)) $"${CMAKE_SYSTEM_NAME}" = y).
    { change (match s_vars s $"CMAKE_SYSTEM_NAME" with Some x => x | None => [] end ++ [] = y). rewrite Sy. apply app_nil_r. }
    assert (FM : forall k, str_eqb $"build_dynamic_reporter" k = false -> no_macro k s).
    { intros k K. unfold no_macro. rewrite M. cbn [reporter_macros find fst]. rewrite K. reflexivity. }
    assert (C : exists r, condition F (s_vars s) (values (s_vars s) (map (inst b) [u $"${CMAKE_SYSTEM_NAME}"; u $"MATCHES"; q $"Darwin"])) = Some r).
    { cbn [map]. rewrite (values_iu _ _ _ y) by assumption. rewrite (values_iu _ _ _ $"MATCHES") by side. rewrite (values_iq _ _ _ $"Darwin") by (apply val_plain; reflexivity).
      unfold values. cbn [flat_map condition]. change (str_eqb $"MATCHES" $"MATCHES") with true. eexists. reflexivity. }
    destruct C as (r & Cr).
    set (v := if r then assign (s_vars s) $"CMAKE_SHARED_LINKER_FLAGS" (Some $"-undefined dynamic_lookup") else s_vars s).
    assert (A : agree [$"CMAKE_SHARED_LINKER_FLAGS"] v (s_vars s)).
    { intros k K. subst v. destruct r; [|reflexivity]. unfold assign. replace (str_eqb k _) with false; [reflexivity|]. symmetry. apply str_eqb_neq. intros ->. apply K. left. reflexivity. }
    assert (Pv : v $"PROJECT_BINARY_DIR" = Some B) by (rewrite A; [exact PB|intros [E|[]]; discriminate]).
    exists (with_vars v (with_targets (s_targets s ++ [reporter_library B dir n]) s)). split; [exists v; split; [reflexivity|exact A]|].
    intros rest s2 R.
    assert (Pl : plain_values (s_vars s) (c_args (reporter_call n)) = [n]) by (apply (values_bares (s_vars s) [n]); constructor; [auto|constructor]).
    eapply (steps_call _ _ _ dir _ rest [$"name"] reporter_body); [reflexivity| | | |exact R].
    { rewrite M. reflexivity. }
    { rewrite Pl. cbn. lia. }
    rewrite Pl. fold b. rewrite map_inst. unfold reporter_body. cbn [map c_name c_args cmd].
    eapply steps_if; [reflexivity|reflexivity|exact Cr| |].
    { instantiate (1 := with_vars v s). subst v. destruct r; cbn [i_then i_else].
      - eapply steps_builtin; [reflexivity|apply FM; reflexivity| |apply steps_nil].
        rewrite (builtin_set _ _ _ _ _ $"CMAKE_SHARED_LINKER_FLAGS" $"-undefined dynamic_lookup" []); [reflexivity|reflexivity| |reflexivity].
        unfold plain_values. cbn [c_args cmd]. rewrite (values_iu _ _ _ $"CMAKE_SHARED_LINKER_FLAGS") by side.
        rewrite (values_iq _ _ _ $"-undefined dynamic_lookup") by plain_val. reflexivity.
      - replace (with_vars (s_vars s) s) with s by (destruct s; reflexivity). apply steps_nil. }
    cbn [i_rest]. destruct (Vals v Pv) as (V2 & V3 & V4).
    assert (W : forall l, values v (inst b (u $"${name}Reporter") :: l) = (false, n ++ $"Reporter") :: values v l) by (intros l; apply values_iu; [exact V2|semi|full]).
    assert (W3 : forall l, values v (inst b (u $"${name}Reporter.cpp") :: l) = (false, n ++ $"Reporter.cpp") :: values v l) by (intros l; apply values_iu; [exact V3|semi|full]).
    assert (W4 : forall l, values v (inst b (u $"${PROJECT_BINARY_DIR}/reporters.dl") :: l) = (false, B ++ $"/reporters.dl") :: values v l) by (intros l; apply values_iu; [exact V4|semi|full]).
    eapply (step_add _ _ _ dir _ _ (n ++ $"Reporter") Shared); [apply FM; reflexivity|exact Fr|left; split; [reflexivity|split; [|reflexivity]]|].
    { unfold plain_values. cbn [c_args cmd]. rewrite W, (values_iu _ _ _ $"SHARED") by side. rewrite W3. reflexivity. }
    eapply step_properties; [reflexivity|apply FM; reflexivity|exact Fr| | |].
    { unfold plain_values. cbn [c_args cmd]. rewrite W.
      rewrite (values_iu _ _ _ $"PROPERTIES"), (values_iu _ _ _ $"LIBRARY_OUTPUT_DIRECTORY"), W4, (values_iu _ _ _ $"RUNTIME_OUTPUT_DIRECTORY"), W4 by side. reflexivity. }
    { reflexivity. }
    eapply step_links; [reflexivity|apply FM; reflexivity|exact Fr| |apply steps_nil].
    unfold plain_values. cbn [c_args cmd]. rewrite W, (values_iu _ _ _ $"OCLintCore") by side. reflexivity.
  Qed.
  Lemma reporters_run : forall dir ns s, Forall name_like ns -> rep_setting s -> NoDup (map t_name (s_targets s) ++ map (fun n => n ++ $"Reporter") ns) ->
    exists s', steps dir (map reporter_call ns) s s' /\ s_targets s' = s_targets s ++ map (reporter_library B dir) ns /\ s_tests s' = s_tests s.
  Proof.
    intros dir ns. induction ns as [|n ns IH]; intros s L Se Fr.
    - exists s. split; [apply steps_nil|]. cbn [map]. rewrite app_nil_r. auto.
    - inversion_clear L as [|? ? Ln Ls]. cbn [map] in Fr. destruct (nodup_step _ _ _ Fr) as [Fn Fr'].
      destruct (reporter_run dir n s Ln Se (is_target_not _ _ Fn)) as (s1 & (v & -> & Av) & R1).
      destruct (IH (with_vars v (with_targets (s_targets s ++ [reporter_library B dir n]) s)) Ls) as (s2 & R2 & T2 & E2).
      + destruct Se as (M & P & y & Y & Ny & Xy). split; [exact M|]. cbn [with_vars s_vars]. split; [rewrite Av; [exact P|intros [E|[]]; discriminate]|].
        exists y. split; [rewrite Av; [exact Y|intros [E|[]]; discriminate]|auto].
      + cbn [with_vars with_targets s_targets]. rewrite map_app. exact Fr'.
      + exists s2. split; [cbn [map]; apply R1, R2|]. split; [|exact E2]. rewrite T2. cbn [with_vars with_targets s_targets map]. rewrite <- app_assoc. reflexivity.
  Qed.
End Reporters.

Section ReporterTests.
  Variables (F : files) (binary : str) (config : variables -> option variables).
  Notation steps := (steps F binary config).
  Variable out : str.
  Hypothesis Ho : no_semicolon out.
  Variable w : variables.
  Definition reporter_libs : list str :=
    listed_in w $"GTEST_LIBS" ++ listed_in w $"PROFILE_RT_LIBS" ++ listed_in w $"CLANG_LIBRARIES" ++ listed_in w $"REQ_LLVM_LIBRARIES" ++ [$"OCLintCore"].
  Definition reporter_test (dir n : str) : target :=
    {| t_name := n; t_kind := Executable; t_sources := [join dir (n ++ $".cpp")]; t_properties := []; t_links := reporter_libs |}.
  Definition run_of (n : str) : str * list str := (n, [out ++ $"/" ++ n]).
  Definition rep_test_setting (s : cstate) : Prop :=
    s_macros s = reporter_test_macros /\ s_vars s $"EXECUTABLE_OUTPUT_PATH" = Some out /\ forall k, In k other_libs -> s_vars s k = w k.
  Lemma reporter_test_run : forall dir n rest s s2, name_like n -> rep_test_setting s -> is_target n (s_targets s) = false ->
    steps dir rest (more [reporter_test dir n] [run_of n] [] s) s2 -> steps dir (reporter_test_call n :: rest) s s2.
  Proof.
    intros dir n rest s s2 N (M & Eo & Kl) Fr R. pose proof N as [Xn Nc]. pose proof (names_no_semicolon n Nc) as Nn.
    assert (A : plain_values (s_vars s) (c_args (reporter_test_call n)) = [n]) by (apply (values_bares (s_vars s) [n]); constructor; [auto|constructor]).
    eapply (steps_call _ _ _ dir _ rest [$"name"] reporter_test_body); [reflexivity| | | |exact R].
    { rewrite M. reflexivity. }
    { rewrite A. cbn. lia. }
    rewrite A. set (b := bindings [$"name"] [n]). rewrite map_inst. unfold reporter_test_body. cbn [map c_name c_args cmd].
    assert (Vn : forall v, val (over b v) $"${name}" = n) by (intros v; change (n ++ [] = n); apply app_nil_r).
    assert (Vc : forall v, val (over b v) $"${name}.cpp" = n ++ $".cpp") by reflexivity.
    assert (Vl : forall k, In k other_libs -> elements [] (val (over b (s_vars s)) ($"${" ++ k ++ $"}")) = listed_in w k).
    { intros k I. unfold listed_in. rewrite <- (Kl k I). f_equal. cbn [other_libs In] in I. destruct I as [<-|[<-|[<-|[<-|[]]]]];
        match goal with |- val _ ($"${" ++ ?k ++ _) = _ => change (match s_vars s k with Some x => x | None => [] end ++ [] = match s_vars s k with Some x => x | None => [] end) end;
        apply app_nil_r. }
    assert (Ve : val (over b (s_vars s)) $"${EXECUTABLE_OUTPUT_PATH}/${name}" = out ++ $"/" ++ n).
    { change (match s_vars s $"EXECUTABLE_OUTPUT_PATH" with Some x => x | None => [] end ++ $"/" ++ n ++ [] = out ++ $"/" ++ n). rewrite Eo, app_nil_r. reflexivity. }
    replace s with (with_vars (s_vars s) s) at 1 by (destruct s; reflexivity).
    eapply (step_add _ _ _ dir _ _ n Executable [n ++ $".cpp"]).
    { unfold no_macro. rewrite M. reflexivity. }
    { exact Fr. }
    { right. split; [reflexivity|]. split; [|reflexivity]. unfold plain_values. cbn [c_args cmd]. rewrite (values_iu _ _ _ n) by auto.
      rewrite (values_iu _ _ _ (n ++ $".cpp")); [reflexivity|apply Vc|semi|full]. }
    eapply (step_links _ _ _ dir _ _ n Executable _ _ _ reporter_libs).
    { reflexivity. }
    { unfold no_macro. rewrite M. reflexivity. }
    { exact Fr. }
    { unfold plain_values. cbn [c_args cmd]. rewrite (values_iu _ _ _ n) by auto. cbn [map snd]. f_equal.
      rewrite !values_il. unfold reporter_libs.
      rewrite <- (Vl $"GTEST_LIBS"), <- (Vl $"PROFILE_RT_LIBS"), <- (Vl $"CLANG_LIBRARIES"), <- (Vl $"REQ_LLVM_LIBRARIES") by (cbn; tauto). reflexivity. }
    eapply steps_builtin; [reflexivity| | |apply steps_nil].
    { unfold newest. cbn [with_vars with_targets s_macros]. rewrite M. reflexivity. }
    rewrite (builtin_test _ _ _ _ _ n (out ++ $"/" ++ n) []).
    - unfold with_test, newest, more, reporter_test, run_of. cbn [with_vars with_targets s_vars s_macros s_targets s_tests s_dirs app map]. rewrite app_nil_r. reflexivity.
    - reflexivity.
    - unfold plain_values, newest. cbn [c_args cmd with_vars s_vars]. rewrite (values_iu _ _ _ n) by auto.
      rewrite (values_iu _ _ _ (out ++ $"/" ++ n)); [reflexivity|exact Ve| |].
      + apply no_semicolon_app; [exact Ho|]. apply no_semicolon_app; [apply semicolon_check; reflexivity|exact Nn].
      + apply app_not_nil. right. discriminate.
  Qed.
  Lemma reporter_tests_run : forall dir ns s, Forall name_like ns -> rep_test_setting s -> NoDup (map t_name (s_targets s) ++ ns) ->
    steps dir (map reporter_test_call ns) s (more (map (reporter_test dir) ns) (map run_of ns) [] s).
  Proof.
    intros dir ns. induction ns as [|n ns IH]; intros s L Se Fr.
    - cbn [map]. rewrite more_nil. apply steps_nil.
    - inversion_clear L as [|? ? Ln Ls]. destruct (nodup_step _ _ _ Fr) as [Fn Fr']. cbn [map].
      apply reporter_test_run; [exact Ln|exact Se|apply is_target_not, Fn|].
      specialize (IH (more [reporter_test dir n] [run_of n] [] s) Ls Se). rewrite more_more in IH. apply IH.
      cbn [more s_targets]. rewrite map_app. exact Fr'.
  Qed.
End ReporterTests.

Section ReportersRoot.
  Variables (F : files) (binary : str) (config : variables -> option variables) (project : str).
  Notation steps := (steps F binary config).
  Variables given v : variables.
  Hypothesis Config : config (at_include $"OCLINT_REPORTERS" project binary given) = Some v.
  Hypothesis no_modules : given $"CMAKE_MODULE_PATH" = None.
  Hypothesis Sb : no_semicolon binary.
  Lemma reporters_head_run : forall rest s2, steps project rest (start_state v) s2 ->
    steps project (module_head $"OCLINT_REPORTERS" ++ cmd $"include_directories" [u $"${OCLINT_SOURCE_DIR}/include"]
      :: cmd $"link_directories" [u $"${OCLINT_BUILD_DIR}/lib"] :: rest) (initial project given) s2.
  Proof.
    intros rest s2 R. apply (module_head_run F binary config project $"OCLINT_REPORTERS" given v); [split; [discriminate|apply checked; reflexivity]|reflexivity|reflexivity|exact Config|exact no_modules|].
    eapply steps_builtin; [reflexivity|reflexivity|apply builtin_nothing; cbn; tauto|].
    eapply steps_builtin; [reflexivity|reflexivity|apply builtin_nothing; cbn; tauto|]. exact R.
  Qed.
  Lemma reporters_configured : forall ns text y,
    v $"PROJECT_BINARY_DIR" = Some binary -> v $"CMAKE_SYSTEM_NAME" = Some y -> no_semicolon y -> y <> [] ->
    false_constant (match v $"TEST_BUILD" with Some x => x | None => [] end) = true ->
    F (project ++ $"/reporters/CMakeLists.txt") = Some text -> commands_in text = Some (reporters_head ++ map reporter_call ns) ->
    Forall name_like ns -> NoDup (map (fun n => n ++ $"Reporter") ns) ->
    exists s, steps project reporters_root (initial project given) s
      /\ s_targets s = map (reporter_library binary (project ++ $"/reporters")) ns /\ s_tests s = [].
  Proof.
    intros ns text y Pb Gy Ny Xy Tb T C L Nd. set (sub := project ++ $"/reporters").
    set (s0 := {| s_vars := assign v current (Some sub); s_macros := reporter_macros; s_targets := []; s_tests := []; s_dirs := [sub] |}).
    destruct (reporters_run F binary config binary Sb sub ns s0 L) as (s1 & R1 & T1 & E1); [|exact Nd|].
    { split; [reflexivity|]. split; [exact Pb|]. exists y. auto. }
    exists (with_vars v s1). split; [|split; [exact T1|exact E1]].
    unfold reporters_root. apply reporters_head_run.
    eapply (steps_if _ _ _ project _ _ _ false); [reflexivity|reflexivity| | |apply steps_nil].
    { cbn [c_args cmd]. rewrite values_ulit by (reflexivity || discriminate). unfold values. cbn [flat_map condition].
      change (true_constant $"TEST_BUILD") with false. change (false_constant $"TEST_BUILD") with false. cbv iota. cbn [start_state s_vars].
      destruct (v $"TEST_BUILD") as [x|]; [rewrite Tb; reflexivity|reflexivity]. }
    cbn [i_else]. rewrite <- (app_nil_r project) at 1.
    eapply (step_subdirectory F binary config project [] $"reporters" [] _ _ _ []); [split; [discriminate|apply checked; reflexivity]|reflexivity|reflexivity|exact T|exact C| |apply steps_nil].
    change ([] ++ $"/" ++ $"reporters") with $"/reporters". fold sub. unfold reporters_head. rewrite <- !app_assoc. cbn [app].
    eapply (steps_macro _ _ _ _ _ _ reporter_body _ $"build_dynamic_reporter" [$"name"]); [reflexivity|reflexivity| |exact R1].
    unfold plain_values. cbn [c_args cmd]. rewrite !values_ulit by (reflexivity || discriminate). reflexivity.
  Qed.
  Lemma reporter_tests_configured : forall ns text x out,
    v $"EXECUTABLE_OUTPUT_PATH" = Some out -> no_semicolon out ->
    v $"TEST_BUILD" = Some x -> false_constant x = false ->
    F (project ++ $"/test/CMakeLists.txt") = Some text -> commands_in text = Some (reporter_tests_head ++ map reporter_test_call ns) ->
    Forall name_like ns -> NoDup ns ->
    exists s, steps project reporters_root (initial project given) s
      /\ s_targets s = map (reporter_test v (project ++ $"/test")) ns /\ s_tests s = map (run_of out) ns /\ s_vars s = v.
  Proof.
    intros ns text x out Eo Ho Tx Fx T C L Nd. set (sub := project ++ $"/test").
    set (s0 := {| s_vars := assign v current (Some sub); s_macros := reporter_test_macros; s_targets := []; s_tests := []; s_dirs := [sub] |}).
    assert (R1 := reporter_tests_run F binary config out Ho v sub ns s0 L).
    exists (with_vars v (more (map (reporter_test v sub) ns) (map (run_of out) ns) [] s0)). split; [|split; [reflexivity|split; reflexivity]].
    unfold reporters_root. apply reporters_head_run.
    eapply (steps_if _ _ _ project _ _ _ true); [reflexivity|reflexivity| | |apply steps_nil].
    { cbn [c_args cmd]. rewrite values_ulit by (reflexivity || discriminate). unfold values. cbn [flat_map condition].
      change (true_constant $"TEST_BUILD") with false. change (false_constant $"TEST_BUILD") with false. cbv iota. cbn [start_state s_vars].
      rewrite Tx, Fx. reflexivity. }
    cbn [i_then]. eapply steps_builtin; [reflexivity|reflexivity|apply builtin_nothing; cbn; tauto|]. rewrite <- (app_nil_r project) at 1.
    eapply (step_subdirectory F binary config project [] $"test" [] _ _ _ []); [split; [discriminate|apply checked; reflexivity]|reflexivity|reflexivity|exact T|exact C| |apply steps_nil].
    change ([] ++ $"/" ++ $"test") with $"/test". fold sub. unfold reporter_tests_head. rewrite <- !app_assoc. cbn [app].
    eapply (steps_macro _ _ _ _ _ _ reporter_test_body _ $"build_test" [$"name"]); [reflexivity|reflexivity| |].
    { unfold plain_values. cbn [c_args cmd]. rewrite !values_ulit by (reflexivity || discriminate). reflexivity. }
    apply R1; [|exact Nd]. split; [reflexivity|]. split; [exact Eo|].
    intros k I. cbn [other_libs In] in I. destruct I as [<-|[<-|[<-|[<-|[]]]]]; reflexivity.
  Qed.
End ReportersRoot.
