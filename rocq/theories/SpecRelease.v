(** * Specification for C150: what is built is what is released *)
From Verif Require Import Base ModelScaffold SpecScaffold ModelCMake ModelCMakeTexts ModelCMakeConfig SpecCMake SpecCMakeConfig SpecCMakeReporters SpecCMakeModules ModelRuleTable SpecInstall.

Section Built.
(** What compilers and linkers make of a target, and how names of shared libraries end here. *)
Variable image : target -> str.
Variable suffix : str.
(** The file made for a target. *)
Definition file_name (t : target) : str :=
  match t_kind t with Executable => t_name t | Shared => $"lib" ++ t_name t ++ suffix | Static => $"lib" ++ t_name t ++ $".a" end.
(** The directory it is put into, for programs and shared libraries. *)
Definition put_into (s : cstate) (t : target) (d : str) : Prop :=
  match t_kind t with
  | Executable => s_vars s $"EXECUTABLE_OUTPUT_PATH" = Some d
  | Shared => In ($"LIBRARY_OUTPUT_DIRECTORY", d) (t_properties t)
  | Static => False
  end.
(** The directory [d] holds the files of the targets that are put there, and nothing else. *)
Definition made (fs : filesystem) (s : cstate) (d : str) : Prop :=
  fs (names d) = Some Directory
  /\ forall n r e, fs (names d ++ n :: r) = Some e <-> exists t, In t (s_targets s) /\ put_into s t d /\ n = file_name t /\ r = [] /\ e = Regular true (image t).

Variable root : str.
Variable fs : filesystem.
(** The directories of a module. *)
Definition module_at (m : str) : str := root ++ $"/oclint-" ++ m.
Definition built_at (m : str) : str := root ++ $"/build/oclint-" ++ m.
(** CMake and then make ran for the rules, after the rules [l] were scaffolded. *)
Inductive rules_built (l : list ruleargs) : Prop :=
| rules_built_with e given f g s :
    machine $"OCLINT_RULES" (module_at $"rules") (built_at $"rules") e given -> off given $"TEST_BUILD" ->
    checkout (module_at $"rules") f -> history (module_at $"rules") f l g -> Forall buildable l -> new_rules l ->
    configures g (built_at $"rules") (oclint_config e) (module_at $"rules") given s ->
    made fs s (built_at $"rules" ++ $"/rules.dl") -> rules_built l.
Inductive reporters_built (l : list repargs) : Prop :=
| reporters_built_with e given f g s :
    machine $"OCLINT_REPORTERS" (module_at $"reporters") (built_at $"reporters") e given -> off given $"TEST_BUILD" ->
    reporters_checkout (module_at $"reporters") f -> reporters_history (module_at $"reporters") f l g -> Forall sensible_reporter l ->
    configures g (built_at $"reporters") (oclint_config e) (module_at $"reporters") given s ->
    made fs s (built_at $"reporters" ++ $"/reporters.dl") -> reporters_built l.
Inductive driver_built (docs : bool) : Prop :=
| driver_built_with e given f s :
    machine $"OCLINT_DRIVER" (module_at $"driver") (built_at $"driver") e given -> off given $"TEST_BUILD" -> asks given $"DOC_GEN_BUILD" docs ->
    leaves e [$"DOC_GEN_BUILD"; $"OCLINT_VERSION_RELEASE"] -> module_copy driver_lists driver_sources (module_at $"driver") f ->
    configures f (built_at $"driver") (oclint_config e) (module_at $"driver") given s ->
    made fs s (built_at $"driver" ++ $"/bin") -> driver_built docs.
End Built.

(** The rules and reporters a release is to have. *)
Definition due_rule (l : list ruleargs) (category class : str) : Prop :=
  (exists a, In a l /\ ra_category a = category /\ ra_class_name a = class)
  \/ exists r, In r shipped_rules /\ sh_built r = true /\ sh_directory r = category /\ sh_file r = class ++ $"Rule.cpp".
Definition due_reporter (l : list repargs) (class : str) : Prop := shipped_reporter class \/ exists a, In a l /\ pa_class_name a = class.
