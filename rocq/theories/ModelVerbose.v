(** * Model of the progress log (-verbose): Logger.h, Logger.cpp and the LOG_VERBOSE calls of
    Driver.cpp and RulesetBasedAnalyzer.cpp

    The functions below are those of ModelDriver and ModelFilter with the text sent to
    LOG_VERBOSE as a first component; ProofVerbose shows that dropping it gives back the
    originals.  Logger.cpp:20-31: the text goes to llvm::outs() when -verbose was given, and
    nowhere otherwise (the debug flag of builds with assertions is not modelled). *)
From Verif Require Import Base ModelResults ModelConfig ModelFilter ModelOptions ModelMain ModelDriver.

Section Log.
  Context {CTX ST : Type}.
  Variable tc : toolchain CTX.
  Variable takeoff : nat -> CTX -> ST -> outcome (list violation * ST).
  Variable rules : list nat.
  Variable mainFilePath : CTX -> str.        (* RuleCarrier.cpp:25-30 *)

  (** Driver.cpp:301-303; [c_str]: the name is passed as a C string. *)
  Definition log_compiling (file : str) : str := $"Compiling " ++ c_str file ++ $" ..." ++ [NL].
  (** Driver.cpp:318-327 and 353-362: what is said once the front end returned *)
  Definition log_compiled (yes no : str) (fr : frontend_result CTX) : str :=
    (if negb (hasErrorOccurred (fr_diagnostics fr))
        && match fr_context fr with Some _ => true | None => false end
     then yes else no) ++ [NL].

  (** Driver.cpp:288-329 *)
  Fixpoint constructCompilers_v (cmds : list (str * command)) (c : collector) (cwd : str)
      (contexts : list CTX) : str * (collector * str * outcome (list CTX)) :=
    match cmds with
    | [] => ([], (c, cwd, Val contexts))
    | fc :: rest =>
        let said := log_compiling (fst fc) in
        match compile_one tc false fc c cwd with
        | (c', cwd', Val fr) =>
            let contexts' :=
              match fr_context fr with
              | Some ctx => if negb (hasErrorOccurred (fr_diagnostics fr)) then contexts ++ [ctx]
                            else contexts
              | None => contexts
              end in
            let '(more, r) := constructCompilers_v rest c' cwd' contexts' in
            (said ++ log_compiled $" - Success" $" - Failed" fr ++ more, r)
        | (c', cwd', Exc w) => (said, (c', cwd', Exc w))
        | (c', cwd', UB) => (said, (c', cwd', UB))
        end
    end.

  (** RulesetBasedAnalyzer.cpp:21-37 *)
  Fixpoint analyze_v (contexts : list CTX) (c : collector) (st : ST) : str * (collector * outcome ST) :=
    match contexts with
    | [] => ([], (c, Val st))
    | ctx :: contexts' =>
        let said := $"Analyzing " ++ c_str (mainFilePath ctx) in
        match rules_loop takeoff rules ctx [] st with
        | Val (s, st') =>
            let '(more, r) := analyze_v contexts' (c_add c s) st' in
            (said ++ $" - Done" ++ [NL] ++ more, r)
        | Exc w => (said, (c, Exc w))
        | UB => (said, (c, UB))
        end
    end.

  (** Driver.cpp:366-390 *)
  Definition invoke_v (cmds : list (str * command)) (c : collector) (cwd : str) (st : ST)
    : str * (collector * str * outcome ST) :=
    let '(said, r) := constructCompilers_v cmds c cwd [] in
    match r with
    | (c', cwd', Val contexts) =>
        let '(more, (c'', o)) := analyze_v contexts c' st in (said ++ more, (c'', cwd', o))
    | (c', cwd', Exc w) => (said, (c', cwd', Exc w))
    | (c', cwd', UB) => (said, (c', cwd', UB))
    end.

  (** Driver.cpp:405-412 *)
  Fixpoint invoke_each_v (cmds : list (str * command)) (c : collector) (cwd : str) (st : ST)
    : str * (collector * str * outcome ST) :=
    match cmds with
    | [] => ([], (c, cwd, Val st))
    | fc :: rest =>
        let '(said, r) := invoke_v [fc] c cwd st in
        match r with
        | (c', cwd', Val st') =>
            let '(more, r') := invoke_each_v rest c' cwd' st' in (said ++ more, r')
        | _ => (said, r)
        end
    end.

  (** Driver.cpp:331-364 *)
  Fixpoint invokeClangStaticAnalyzer_v (cmds : list (str * command)) (c : collector) (cwd : str)
    : str * (collector * str * outcome unit) :=
    match cmds with
    | [] => ([], (c, cwd, Val tt))
    | fc :: rest =>
        let said := $"Clang Static Analyzer " ++ c_str (fst fc) in
        match compile_one tc true fc c cwd with
        | (c', cwd', Val fr) =>
            let '(more, r) := invokeClangStaticAnalyzer_v rest c' cwd' in
            (said ++ log_compiled $" - Done" $" - Finished with Failure" fr ++ more, r)
        | (c', cwd', Exc w) => (said, (c', cwd', Exc w))
        | (c', cwd', UB) => (said, (c', cwd', UB))
        end
    end.

  (** Driver.cpp:392-418 *)
  Definition run_v (globalAnalysis clangChecker : bool) (sources : list str) (c : collector)
      (cwd : str) (st : ST) : str * (collector * outcome ST) :=
    let cmds := fst (constructCompileCommands (tc_abspath tc) (tc_db tc) sources) in
    let '(said, r) := if globalAnalysis then invoke_v cmds c cwd st else invoke_each_v cmds c cwd st in
    match r with
    | (c', cwd', Val st') =>
        if clangChecker then
          let '(more, r') := invokeClangStaticAnalyzer_v cmds c' cwd' in
          (said ++ more,
           match r' with
           | (c'', _, Val _) => (c'', Val st')
           | (c'', _, Exc w) => (c'', Exc w)
           | (c'', _, UB) => (c'', UB)
           end)
        else (said, (c', Val st'))
    | (c', _, Exc w) => (said, (c', Exc w))
    | (c', _, UB) => (said, (c', UB))
    end.
End Log.

(** ** Standard output *)

(** main.cpp writes through std::cout (75-83, 51-56 and the reporter) and the log through
    llvm::outs(): two buffers in front of one file descriptor.  [cout_text] is what a run
    sends through the first, [outs_text] through the second; [log] is what the driver says
    for a list of rules. *)
Definition cout_text (evs : list event) : str :=
  flat_map (fun e => match e with EOut t => t | _ => [] end) evs.
Definition outs_text (verbose : bool) (log : list nat -> str) (evs : list event) : str :=
  if verbose then flat_map (fun e => match e with EAnalyze rs => log rs | _ => [] end) evs else [].
