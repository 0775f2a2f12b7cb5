(** * Model of oclint-driver: Driver.cpp, DiagnosticDispatcher.cpp, CompilerInstance.cpp *)
From Verif Require Import Base ModelResults ModelConfig ModelFilter.

(** ** Compile commands, Driver.cpp:101-121 *)
Record command := { cc_directory : str; cc_line : list str }.

Section CompileCommands.
  Variable abspath : str -> str.                      (* clang::tooling::getAbsolutePath *)
  Variable db : str -> list command.                  (* the compilation database *)

  (** Answers the (file, command) pairs and what is written to standard error. *)
  Fixpoint commands_loop (sources : list str) (acc : list (str * command)) (err : list str)
    : list (str * command) * list str :=
    match sources with
    | [] => (acc, err)
    | s :: rest =>
        let filePath := abspath s in
        match db filePath with
        | [] => commands_loop rest acc
                  (err ++ [$"Skipping " ++ filePath ++ $". Compile command not found." ++ [NL]])
        | cmds => commands_loop rest (acc ++ map (fun c => (filePath, c)) cmds) err
        end
    end.
  Definition constructCompileCommands (sources : list str) := commands_loop sources [] [].
End CompileCommands.

(** ** Driver.cpp:178-199: the argument vector handed to Clang's driver.
    An empty command line is only excluded by an assertion: undefined.  The loop condition is
    [cmdIndex != end] on [int]s; an index past the end is undefined. *)
Fixpoint argv_loop (fuel : nat) (line : list str) (i stop : Z) (argv : list str) : outcome (list str) :=
  if Z.eqb i stop then Val argv
  else match fuel with
       | O => UB                      (* not reachable with fuel = size + 1 *)
       | S n =>
           if (i <? 0)%Z then UB else
           match nth_error line (Z.to_nat i) with
           | None => UB
           | Some a => argv_loop n line (i + 1)%Z stop
                         (if negb (str_eqb a $"-gmodules") then argv ++ [a] else argv)
           end
       end.
Definition buildArgv (mainExecutable : str) (commandLine : list str) (runClangChecker : bool)
  : outcome (list str) :=
  match commandLine with
  | [] => UB
  | _ :: rest =>
      let line := mainExecutable :: rest in
      let size := Z.of_nat (length line) in
      let argv := if runClangChecker then [mainExecutable; $"--analyze"] else [] in
      let start := if runClangChecker then 1%Z else 0%Z in
      let stop := if runClangChecker then (size - 1)%Z else size in
      obind (argv_loop (S (length line)) line start stop argv) (fun a =>
      Val (a ++ [$"-D__OCLINT__"]))
  end.

(** ** Driver.cpp:275-286.  The loop is not structurally terminating: [None] means still
    running after [fuel] iterations.  [find_from s p pos] is [s.find(p, pos)]. *)
Definition find_from (s p : str) (pos : nat) : option nat :=
  if length s <? pos then None
  else match find_sub p (skipn pos s) with Some n => Some (pos + n) | None => None end.
Fixpoint replace_loop (fuel : nat) (orig oldStr newStr : str) (pos : option nat) : option str :=
  match pos with
  | None => Some orig
  | Some p =>
      match fuel with
      | O => None
      | S n =>
          let orig' := firstn p orig ++ newStr ++ skipn (p + length oldStr) orig in
          replace_loop n orig' oldStr newStr (find_from orig' oldStr (p + length newStr))
      end
  end.
Definition stringReplace (fuel : nat) (orig oldStr newStr : str) : option str :=
  replace_loop fuel orig oldStr newStr (find_from orig oldStr 0).

(** The directory of a compile command, Driver.cpp:305 and 340: [stringReplace(dir, "\\ ", " ")].
    [length dir] iterations suffice (proved). *)
Definition targetDir (dir : str) : str :=
  match stringReplace (length dir) dir $"\ " $" " with Some d => d | None => dir end.

(** ** Driver.cpp:131-176.  [jobs_text] is the printed job list.  The assertion at 150 is
    assumed compiled out. *)
Record job := { j_isCommand : bool; j_tool : str; j_args : list str }.
Definition getCC1Arguments (jobs : list job) (offloadActions : list bool) (jobs_text : str)
  : outcome (list str) :=
  match jobs with
  | [] => Exc ($"compilation contains no job:" ++ [NL] ++ jobs_text ++ [NL])
  | j :: others =>
      let offload := if 1 <? length jobs then existsb (fun b => b) offloadActions else false in
      if (1 <? length jobs) && negb offload
      then Exc ($"compilation contains multiple jobs:" ++ [NL] ++ jobs_text ++ [NL])
      else if negb (j_isCommand j)
      then Exc ($"compilation job does not contain correct command:" ++ [NL] ++ jobs_text ++ [NL])
      else if negb (str_eqb (j_tool j) $"clang")
      then Exc $"expected a command for clang compiler"
      else Val (j_args j)
  end.

(** ** DiagnosticDispatcher.cpp *)
Inductive level := Ignored | Note | Remark | Warning | Error | Fatal.
Record diagnostic := {
  d_level : level;
  d_hasSourceManager : bool;
  d_filename : str;              (* getFilename(location) *)
  d_isMacro : bool;              (* location.isMacroID() *)
  d_expansionFilename : str;     (* getFilename(getExpansionLoc(location)) *)
  d_line : Z;                    (* presumed *)
  d_column : Z;
  d_message : str
}.
(** DiagnosticDispatcher.cpp:34-62 *)
Definition populateSourceLocation (d : diagnostic) : Z * Z * str :=
  if negb (d_hasSourceManager d) then (0%Z, 0%Z, [])
  else
    let filename := if is_nil (d_filename d) && d_isMacro d then d_expansionFilename d
                    else d_filename d in
    (d_line d, d_column d, filename).
(** DiagnosticDispatcher.cpp:64-95 *)
Definition HandleDiagnostic (isChecker : bool) (c : collector) (d : diagnostic) : collector :=
  let '(line, column, filename) := populateSourceLocation d in
  let v := {| v_rule := None; v_path := filename; v_startLine := line; v_startColumn := column;
              v_endLine := 0; v_endColumn := 0; v_message := d_message d |} in
  if isChecker then c_addCheckerBug c v
  else
    let c1 := match d_level d with Warning => c_addWarning c v | _ => c end in
    match d_level d with Error | Fatal => c_addError c1 v | _ => c1 end.

(** ** Driver.cpp:288-418 *)

(** What Clang does is a parameter: argument adjusters (265-273), the driver's job list, the
    front end (CompilerInstance.cpp:85-103: the diagnostics it emits and the AST context it
    leaves, if any).  [hasErrorOccurred] holds when a diagnostic of level error or fatal was
    emitted. *)
Record frontend_result (CTX : Type) := { fr_diagnostics : list diagnostic; fr_context : option CTX }.
Arguments fr_diagnostics {CTX}. Arguments fr_context {CTX}.

Record toolchain (CTX : Type) := {
  tc_abspath : str -> str;
  tc_db : str -> list command;
  tc_adjust : list str -> str -> list str;
  tc_mainExecutable : str;
  tc_jobs : list str -> list job * list bool * str;
  tc_chdir : str -> str -> option str;           (* current directory, target: new directory *)
  tc_diagnosticsCreated : list str -> bool;
  tc_frontend : str -> list str -> frontend_result CTX    (* current directory, cc1 arguments *)
}.
Arguments tc_abspath {CTX}. Arguments tc_db {CTX}. Arguments tc_adjust {CTX}.
Arguments tc_mainExecutable {CTX}. Arguments tc_jobs {CTX}. Arguments tc_chdir {CTX}.
Arguments tc_diagnosticsCreated {CTX}. Arguments tc_frontend {CTX}.

(** CompilerInstance.cpp:56-61: the option alone decides, so that with the static analyzer
    enabled the plain compilation runs the analysis action, too. *)
Inductive action := SyntaxOnlyAction | AnalysisAction.
Definition getFrontendAction (enableClangChecker : bool) : action :=
  if enableClangChecker then AnalysisAction else SyntaxOnlyAction.
(** A toolchain describes Clang during one run.  This is the one of a run with the option given,
    [frontend] being what Clang does with either action. *)
Definition with_action {CTX} (tc : toolchain CTX) (frontend : action -> str -> list str -> frontend_result CTX)
    (enableClangChecker : bool) : toolchain CTX :=
  {| tc_abspath := tc_abspath tc; tc_db := tc_db tc; tc_adjust := tc_adjust tc;
     tc_mainExecutable := tc_mainExecutable tc; tc_jobs := tc_jobs tc; tc_chdir := tc_chdir tc;
     tc_diagnosticsCreated := tc_diagnosticsCreated tc;
     tc_frontend := frontend (getFrontendAction enableClangChecker) |}.

Definition hasErrorOccurred (ds : list diagnostic) : bool :=
  existsb (fun d => match d_level d with Error | Fatal => true | _ => false end) ds.

Section Run.
  Context {CTX ST : Type}.
  Variable tc : toolchain CTX.
  Variable takeoff : nat -> CTX -> ST -> outcome (list violation * ST).
  Variable rules : list nat.

  Definition chdirError (d : str) : str :=
    $"Cannot change dictionary into """ ++ d ++ $""", " ++
    $"please make sure the directory exists and you have permission to access!".

  (** Driver.cpp:178-222 *)
  Definition newCompilerInvocation (line : list str) (checker : bool) : outcome (list str) :=
    obind (buildArgv (tc_mainExecutable tc) line checker) (fun argv =>
      let '(jobs, offload, text) := tc_jobs tc argv in
      getCC1Arguments jobs offload text).

  (** One pass of the loops 292-328 and 335-363, up to compiler->start(): changes directory,
      builds the invocation, runs the front end whose diagnostics are dispatched at once.
      Answers collector, directory and the front end's result.  (The two loops adjust the
      arguments before and after chdir; the adjusters do not look at the directory.) *)
  Definition compile_one (checker : bool) (fc : str * command) (c : collector) (cwd : str)
    : collector * str * outcome (frontend_result CTX) :=
    let line := tc_adjust tc (cc_line (snd fc)) (fst fc) in
    let dir := targetDir (cc_directory (snd fc)) in
    match tc_chdir tc cwd dir with
    | None => (c, cwd, Exc (chdirError dir))
    | Some cwd' =>
        match newCompilerInvocation line checker with
        | Exc w => (c, cwd', Exc w)
        | UB => (c, cwd', UB)
        | Val cc1 =>
            if negb (tc_diagnosticsCreated tc cc1)
            then (c, cwd', Exc $"cannot create compiler diagnostics")
            else
              let fr := tc_frontend tc cwd' cc1 in
              (fold_left (HandleDiagnostic checker) (fr_diagnostics fr) c, cwd', Val fr)
        end
    end.

  (** Driver.cpp:288-329: contexts of the compilers kept (and 370-376 of [invoke]). *)
  Fixpoint constructCompilers (cmds : list (str * command)) (c : collector) (cwd : str)
      (contexts : list CTX) : collector * str * outcome (list CTX) :=
    match cmds with
    | [] => (c, cwd, Val contexts)
    | fc :: rest =>
        match compile_one false fc c cwd with
        | (c', cwd', Val fr) =>
            let contexts' :=
              match fr_context fr with
              | Some ctx => if negb (hasErrorOccurred (fr_diagnostics fr)) then contexts ++ [ctx]
                            else contexts
              | None => contexts
              end in
            constructCompilers rest c' cwd' contexts'
        | (c', cwd', Exc w) => (c', cwd', Exc w)
        | (c', cwd', UB) => (c', cwd', UB)
        end
    end.

  (** Driver.cpp:366-390; preprocess and postprocess of the rule-set analyzer are empty
      (RulesetBasedAnalyzer.cpp has no override). *)
  Definition invoke (cmds : list (str * command)) (c : collector) (cwd : str) (st : ST)
    : collector * str * outcome ST :=
    match constructCompilers cmds c cwd [] with
    | (c', cwd', Val contexts) =>
        let '(c'', o) := analyze takeoff rules contexts c' st in (c'', cwd', o)
    | (c', cwd', Exc w) => (c', cwd', Exc w)
    | (c', cwd', UB) => (c', cwd', UB)
    end.

  (** Driver.cpp:405-412 *)
  Fixpoint invoke_each (cmds : list (str * command)) (c : collector) (cwd : str) (st : ST)
    : collector * str * outcome ST :=
    match cmds with
    | [] => (c, cwd, Val st)
    | fc :: rest =>
        match invoke [fc] c cwd st with
        | (c', cwd', Val st') => invoke_each rest c' cwd' st'
        | r => r
        end
    end.

  (** Driver.cpp:331-364 *)
  Fixpoint invokeClangStaticAnalyzer (cmds : list (str * command)) (c : collector) (cwd : str)
    : collector * str * outcome unit :=
    match cmds with
    | [] => (c, cwd, Val tt)
    | fc :: rest =>
        match compile_one true fc c cwd with
        | (c', cwd', Val _) => invokeClangStaticAnalyzer rest c' cwd'
        | (c', cwd', Exc w) => (c', cwd', Exc w)
        | (c', cwd', UB) => (c', cwd', UB)
        end
    end.

  (** Driver.cpp:392-418 *)
  Definition run (globalAnalysis clangChecker : bool) (sources : list str) (c : collector)
      (cwd : str) (st : ST) : collector * outcome ST :=
    let cmds := fst (constructCompileCommands (tc_abspath tc) (tc_db tc) sources) in
    match (if globalAnalysis then invoke cmds c cwd st else invoke_each cmds c cwd st) with
    | (c', cwd', Val st') =>
        if clangChecker then
          match invokeClangStaticAnalyzer cmds c' cwd' with
          | (c'', _, Val _) => (c'', Val st')
          | (c'', _, Exc w) => (c'', Exc w)
          | (c'', _, UB) => (c'', UB)
          end
        else (c', Val st')
    | (c', _, Exc w) => (c', Exc w)
    | (c', _, UB) => (c', UB)
    end.
End Run.
