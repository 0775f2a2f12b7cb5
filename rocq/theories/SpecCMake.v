(** * Specification for C146: what is scaffolded is built *)
From Verif Require Import Base ModelScaffold SpecScaffold ModelCMake ModelCMakeTexts ModelCMakeConfig ModelRuleTable.

(** A fresh copy of oclint-rules in the directory [project]: its lists of things to build, templates
    and sources, and no lists besides. *)
Definition checkout (project : str) (f : files) : Prop :=
  (forall p t, In (p, t) (rules_lists ++ rules_templates) -> f (project ++ $"/" ++ p) = Some t)
  /\ (forall p, In p rules_sources -> f (project ++ $"/" ++ p) <> None)
  /\ (forall p, f (project ++ $"/" ++ p ++ $"/CMakeLists.txt") <> None -> In (p ++ $"/CMakeLists.txt") (map fst rules_lists)).

(** An author edits and adds files, but leaves the lists to the script and deletes nothing. *)
Definition edited (project : str) (f g : files) : Prop :=
  (forall p, g (project ++ p ++ $"/CMakeLists.txt") = f (project ++ p ++ $"/CMakeLists.txt"))
  /\ forall p, f p <> None -> g p <> None.
(** What happened to the copy: the rules asked for, and edits in between. *)
Inductive history (project : str) (start : files) : list ruleargs -> files -> Prop :=
| h_start : history project start [] start
| h_edit l f g : history project start l f -> edited project f g -> history project start l g
| h_rule l a f g : history project start l f -> scaffoldRule project f a = (g, Val tt) -> history project start (l ++ [a]) g.

(** Names of directories that need no quoting. *)
Definition plain_directory (s : str) : Prop :=
  s <> [] /\ Forall (fun c => isalpha c = true \/ isdigit c = true \/ In c ["_"; "-"; "."]%char) s.
(** What can be asked for.  The two exceptions are those of the build files: see the findings. *)
Definition buildable (a : ruleargs) : Prop :=
  sensible a /\ rule_type (ra_rule_type a) /\ plain_directory (ra_category a)
  /\ ra_class_name a <> $"CACHE" /\ ra_class_name a <> $"OCLintAbstract".
(** The rules asked for are new. *)
Definition new_rules (l : list ruleargs) : Prop :=
  NoDup (map ra_class_name l)
  /\ forall a r, In a l -> In r shipped_rules -> sh_built r = true -> sh_file r <> ra_class_name a ++ $"Rule.cpp".

(** Where OCLintConfig.cmake is. *)
Definition modules (module project : str) : str := project ++ if str_eqb module $"OCLINT_CORE" then $"/cmake" else $"/../oclint-core/cmake".
(** The variables when the CMakeLists.txt of a module includes OCLintConfig. *)
Definition at_include (module project binary : str) (given : variables) : variables :=
  assign (assign (assign (assign given $"CMAKE_CURRENT_SOURCE_DIR" (Some project)) (module ++ $"_SOURCE_DIR") (Some project))
            $"PROJECT_BINARY_DIR" (Some binary))
    $"CMAKE_MODULE_PATH" (Some (modules module project)).
(** Where CMake runs. *)
Record machine (module project binary : str) (e : surroundings) (given : variables) : Prop := {
  m_project : ~ In ";"%char project;
  m_binary : ~ In ";"%char binary;
  (* OCLintConfig gets through, that is, it finds LLVM *)
  m_found : oclint_config e (at_include module project binary given) <> None;
  (* LLVM's own configuration leaves these alone *)
  m_llvm : forall v w k, In k [$"PROJECT_BINARY_DIR"; $"CMAKE_SYSTEM_NAME"; $"CMAKE_CURRENT_SOURCE_DIR"; $"TEST_BUILD"; $"EXECUTABLE_OUTPUT_PATH"; $"PROFILE_RT_LIBS";
                                      $"NVIDIA_NVCC_BIN"] ->
           e_llvm e v = Some w -> w k = v k;
  m_system : exists y, given $"CMAKE_SYSTEM_NAME" = Some y /\ y <> [] /\ ~ In ";"%char y;
  m_modules : given $"CMAKE_MODULE_PATH" = None
}.
(** Not asked for the tests. *)
Definition off (given : variables) (k : str) : Prop := given k = None \/ exists v, given k = Some v /\ In v [$"0"; $"OFF"; $"NO"; $"FALSE"; $"N"].

(** The library of a rule: from its source, to be found where the rules are looked for, and linked
    with what rules need. *)
Record library_of_rule (project binary category class : str) (t : target) : Prop := {
  rl_name : t_name t = class ++ $"Rule";
  rl_kind : t_kind t = Shared;
  rl_source : t_sources t = [project ++ $"/rules/" ++ category ++ $"/" ++ class ++ $"Rule.cpp"];
  (* the first for all systems but Windows, the second for Windows *)
  rl_place : forall k d, In k [$"LIBRARY_OUTPUT_DIRECTORY"; $"RUNTIME_OUTPUT_DIRECTORY"] ->
             In (k, d) (t_properties t) <-> d = binary ++ $"/rules.dl";
  rl_links : incl [$"OCLintAbstractRule"; $"OCLintMetric"; $"OCLintHelper"; $"OCLintUtil"; $"OCLintCore"] (t_links t)
}.
(** Configuring ends with these targets, given enough steps. *)
Definition configures (f : files) (binary : str) (config : variables -> option variables) (project : str) (given : variables) (s : cstate) : Prop :=
  exists n, forall fuel, n <= fuel -> configure f binary config fuel project given = Done s.
Definition rejected (f : files) (binary : str) (config : variables -> option variables) (project : str) (given : variables) : Prop :=
  exists n, forall fuel, n <= fuel -> configure f binary config fuel project given = Failed.

(** ** The tests *)
Definition on (given : variables) (k : str) : Prop := exists v, given k = Some v /\ In v [$"1"; $"ON"; $"YES"; $"TRUE"; $"Y"].
(** What the tests need besides: names of libraries are none of CMake's words, and a program that
    is found is found by its name. *)
Record test_machine (e : surroundings) (given : variables) : Prop := {
  m_libnames : forall l, Forall (fun c => ~ In ";"%char c) l -> Forall (fun n => n <> [] /\ ~ In ";"%char n /\ n <> $"CACHE" /\ n <> $"PARENT_SCOPE") (e_libnames e l);
  m_profile : given $"PROFILE_RT_LIBS" = None;
  m_nvcc : given $"NVIDIA_NVCC_BIN" = None;
  m_programs : forall n p, e_program e n = Some p -> exists d, p = d ++ n
}.
(** Tests were asked for at most once per class. *)
Definition new_tests (l : list ruleargs) : Prop := NoDup (map ra_class_name (filter ra_test l)).
Definition test_source (p : str) : Prop := exists r, p = $"test/" ++ r ++ $"Test.cpp".
Definition cuda_tests : list str :=
  [$"test/abstract/CUDASupportTest.cpp"; $"test/cuda/CudaBranchDivergenceRuleTest.cpp"; $"test/cuda/CudaCyclomaticComplexityRuleTest.cpp"].
(** A program of tests that is linked with what tests need, and run. *)
Record test_program (out : str) (s : cstate) (t : target) : Prop := {
  tp_kind : t_kind t = Executable;
  tp_links : incl [$"test_helper"; $"OCLintAbstractRule"; $"OCLintMetric"; $"OCLintHelper"; $"OCLintUtil"; $"OCLintCore"; $"OCLintRuleSet";
                   $"gtest_main"; $"gmock_main"] (t_links t);
  tp_run : In (t_name t, [out ++ $"/" ++ t_name t]) (s_tests s)
}.
