(** * Specification for C149: what oclint-core, oclint-metrics and oclint-driver build *)
From Verif Require Import Base ModelScaffold ModelCMake ModelCMakeTexts SpecCMake.

(** A copy of a module: its lists are as shipped, and its sources are there. *)
Definition module_copy (lists : list (str * str)) (sources : list str) (project : str) (f : files) : Prop :=
  (forall p t, In (p, t) lists -> f (project ++ $"/" ++ p) = Some t) /\ (forall p, In p sources -> f (project ++ $"/" ++ p) <> None).

Definition compiled (s : cstate) (x : str) (t : target) : Prop := In t (s_targets s) /\ In x (t_sources t).
(** The program of a test, linked with what it needs, and run. *)
Record module_test (project binary : str) (needs : list str) (name : str) (s : cstate) (t : target) : Prop := {
  mt_target : In t (s_targets s);
  mt_name : t_name t = name;
  mt_kind : t_kind t = Executable;
  mt_source : t_sources t = [project ++ $"/test/" ++ name ++ $".cpp"];
  mt_links : incl needs (t_links t);
  mt_run : In (name, [binary ++ $"/bin/" ++ name]) (s_tests s)
}.
(** What is built from [sources]: these [libraries], and with [tests] the tests, which need [needs]. *)
Record builds (sources : list str) (project binary : str) (libraries needs : list str) (tests : bool) (s : cstate) : Prop := {
  (* each source of a library is compiled into one of the libraries, and nowhere else *)
  b_library : forall x, In ($"lib/" ++ x) sources ->
    exists t, compiled s (project ++ $"/lib/" ++ x) t /\ t_kind t = Static /\ In (t_name t) libraries
      /\ forall t', compiled s (project ++ $"/lib/" ++ x) t' -> t' = t;
  b_libraries : forall n, In n libraries -> exists t, In t (s_targets s) /\ t_name t = n /\ t_kind t = Static;
  b_tests : if tests then s_vars s $"CMAKE_TESTING_ENABLED" = Some $"1"
                          /\ (forall n, In ($"test/" ++ n ++ $".cpp") sources -> exists t, module_test project binary needs n s t)
                          /\ (forall n c, In (n, c) (s_tests s) -> In ($"test/" ++ n ++ $".cpp") sources)
            else s_tests s = [] /\ forall n t, ~ compiled s (project ++ $"/test/" ++ n) t;
  b_names : NoDup (map t_name (s_targets s));
  (* programs are put here *)
  b_programs : s_vars s $"EXECUTABLE_OUTPUT_PATH" = Some (binary ++ $"/bin");
  (* and nothing but its sources *)
  b_ours : forall t x, compiled s x t -> exists p, In p sources /\ x = project ++ $"/" ++ p
}.
(** A program of oclint-driver: the libraries of OCLint come before those of Clang they use. *)
Record driver_program (project name : str) (files : list str) (t : target) : Prop := {
  dp_name : t_name t = name;
  dp_kind : t_kind t = Executable;
  dp_sources : t_sources t = map (fun f => project ++ $"/" ++ f) files;
  dp_links : exists rest, t_links t = [$"OCLintDriver"; $"OCLintRuleSet"; $"OCLintCore"] ++ rest
    /\ incl [$"clangStaticAnalyzerFrontend"; $"clangTooling"; $"clangFrontend"; $"clangAST"; $"clangLex"; $"clangBasic"] rest
}.
