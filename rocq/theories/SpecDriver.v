(** * Specification vocabulary for the driver *)
From Verif Require Import Base ModelResults ModelConfig ModelFilter SpecFilter ModelDriver.

(** [out] is [s] with every occurrence of [old] found scanning from the left replaced by
    [new]; the scan goes on behind the inserted text. *)
Inductive replaced (old new : str) : str -> str -> Prop :=
| rp_none : forall s, (forall a b, s <> a ++ old ++ b) -> replaced old new s s
| rp_first : forall a b out,
    (forall a' b', a ++ old ++ b = a' ++ old ++ b' -> length a <= length a') ->
    replaced old new b out ->
    replaced old new (a ++ old ++ b) (a ++ new ++ out).

(** The arguments for an ordinary compile, and for the static analyzer. *)
Definition plain_argv (exe : str) (line argv : list str) : Prop :=
  exists program args kept,
    line = program :: args
    /\ sublist_where (fun a => a <> $"-gmodules") (exe :: args) kept
    /\ argv = kept ++ [$"-D__OCLINT__"].
Definition analyzer_argv (exe : str) (line argv : list str) : Prop :=
  exists program args last kept,
    line = program :: args ++ [last]
    /\ sublist_where (fun a => a <> $"-gmodules") args kept
    /\ argv = exe :: $"--analyze" :: kept ++ [$"-D__OCLINT__"].

(** The job list is one from which a single clang invocation can be taken. *)
Definition usable_jobs (jobs : list job) (offload : list bool) (args : list str) : Prop :=
  exists j others,
    jobs = j :: others
    /\ (others = [] \/ In true offload)
    /\ j_isCommand j = true /\ j_tool j = $"clang" /\ args = j_args j.

(** Where a diagnostic is shown. *)
Definition shown_at (d : diagnostic) (v : violation) : Prop :=
  v_rule v = None /\ v_message v = d_message d /\ v_endLine v = 0%Z /\ v_endColumn v = 0%Z
  /\ (d_hasSourceManager d = true ->
        v_startLine v = d_line d /\ v_startColumn v = d_column d
        /\ (d_isMacro d = false -> v_path v = d_filename d)
        /\ (d_filename d <> [] -> v_path v = d_filename d)
        /\ (d_filename d = [] -> d_isMacro d = true -> v_path v = d_expansionFilename d))
  /\ (d_hasSourceManager d = false ->
        v_startLine v = 0%Z /\ v_startColumn v = 0%Z /\ v_path v = []).

Definition is_error (d : diagnostic) : Prop := d_level d = Error \/ d_level d = Fatal.
Definition is_warning (d : diagnostic) : Prop := d_level d = Warning.

(** [vs] shows, in order, exactly those of [ds] that satisfy [P]. *)
Definition shows_where (P : diagnostic -> Prop) (ds : list diagnostic) (vs : list violation) : Prop :=
  exists sel, sublist_where P ds sel /\ Forall2 shown_at sel vs.

Section Units.
  Context {CTX ST : Type}.
  Variable tc : toolchain CTX.

  (** The front end gets to run on a compile command from directory [cwd]. *)
  Definition unit_compiles (checker : bool) (cwd : str) (fc : str * command) (cwd' : str)
      (fr : frontend_result CTX) : Prop :=
    exists dir argv args,
      replaced $"\ " $" " (cc_directory (snd fc)) dir
      /\ tc_chdir tc cwd dir = Some cwd'
      /\ (if checker then analyzer_argv else plain_argv) (tc_mainExecutable tc)
           (tc_adjust tc (cc_line (snd fc)) (fst fc)) argv
      /\ usable_jobs (fst (fst (tc_jobs tc argv))) (snd (fst (tc_jobs tc argv))) args
      /\ tc_diagnosticsCreated tc args = true
      /\ fr = tc_frontend tc cwd' args.

  Inductive units_compile (checker : bool)
    : str -> list (str * command) -> list (frontend_result CTX) -> str -> Prop :=
  | uc_nil : forall cwd, units_compile checker cwd [] [] cwd
  | uc_cons : forall cwd fc cwd1 fr cmds frs cwd2,
      unit_compiles checker cwd fc cwd1 fr ->
      units_compile checker cwd1 cmds frs cwd2 ->
      units_compile checker cwd (fc :: cmds) (fr :: frs) cwd2.

  (** A unit that compiled without error and has an AST. *)
  Definition good (fr : frontend_result CTX) (ctx : CTX) : Prop :=
    fr_context fr = Some ctx /\ forall d, In d (fr_diagnostics fr) -> ~ is_error d.

  Inductive good_units : list (frontend_result CTX) -> list CTX -> Prop :=
  | gu_nil : good_units [] []
  | gu_good : forall fr ctx frs ctxs,
      good fr ctx -> good_units frs ctxs -> good_units (fr :: frs) (ctx :: ctxs)
  | gu_bad : forall fr frs ctxs,
      (forall ctx, ~ good fr ctx) -> good_units frs ctxs -> good_units (fr :: frs) ctxs.

  Definition all_diagnostics (frs : list (frontend_result CTX)) : list diagnostic :=
    flat_map fr_diagnostics frs.

  (** The compile commands of the sources, in order. *)
  Definition commands_of (sources : list str) : list (str * command) :=
    flat_map (fun s => map (pair (tc_abspath tc s)) (tc_db tc (tc_abspath tc s))) sources.
End Units.
