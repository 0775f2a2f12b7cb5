(** * Specification for C148: the reporters that were scaffolded are built *)
From Verif Require Import Base ModelScaffold SpecScaffold ModelCMake ModelCMakeTexts SpecCMake.

(** A fresh copy of oclint-reporters in the directory [project]. *)
Definition reporters_checkout (project : str) (f : files) : Prop :=
  (forall p t, In (p, t) (reporters_lists ++ reporters_templates) -> f (project ++ $"/" ++ p) = Some t)
  /\ (forall p, In p reporters_sources -> f (project ++ $"/" ++ p) <> None).

(** What happened to the copy: the reporters that were asked for and made, those that were refused,
    and edits in between. *)
Inductive reporters_history (project : str) (start : files) : list repargs -> files -> Prop :=
| k_start : reporters_history project start [] start
| k_edit l f g : reporters_history project start l f -> edited project f g -> reporters_history project start l g
| k_made l a f g : reporters_history project start l f -> scaffoldReporter project f a = ([], (g, Val tt)) ->
    reporters_history project start (l ++ [a]) g
| k_refused l a f g complaints : reporters_history project start l f -> scaffoldReporter project f a = (complaints, (g, Val tt)) ->
    complaints <> [] -> reporters_history project start l g.

(** The library of a reporter: from its source, to be found where reporters are looked for. *)
Record library_of_reporter (project binary class : str) (t : target) : Prop := {
  pl_name : t_name t = class ++ $"Reporter";
  pl_kind : t_kind t = Shared;
  pl_source : t_sources t = [project ++ $"/reporters/" ++ class ++ $"Reporter.cpp"];
  pl_place : forall k d, In k [$"LIBRARY_OUTPUT_DIRECTORY"; $"RUNTIME_OUTPUT_DIRECTORY"] ->
             In (k, d) (t_properties t) <-> d = binary ++ $"/reporters.dl";
  pl_links : t_links t = [$"OCLintCore"]
}.
(** The program of a test of the reporters, linked with what tests need, and run. *)
Record reporter_test_program (project binary name : str) (s : cstate) (t : target) : Prop := {
  pt_name : t_name t = name;
  pt_kind : t_kind t = Executable;
  pt_source : t_sources t = [project ++ $"/test/" ++ name ++ $".cpp"];
  pt_links : incl [$"gmock"; $"gtest"; $"clangTooling"; $"clangAST"; $"clangBasic"; $"OCLintCore"] (t_links t);
  pt_run : In (name, [binary ++ $"/bin/" ++ name]) (s_tests s)
}.
(** The class of a shipped reporter, the name of a shipped test. *)
Definition shipped_reporter (class : str) : Prop := In ($"reporters/" ++ class ++ $"Reporter.cpp") reporters_sources.
Definition shipped_test (name : str) : Prop := In ($"test/" ++ name ++ $".cpp") reporters_sources.
