(** * Model of oclint-driver: loading of rules and reporters, and main() *)
From Verif Require Import Base ModelResults ModelConfig ModelFilter ModelOptions.

(** ** The outside world seen by the loaders and by main() *)

(** A reporter (oclint-core/include/oclint/Reporter.h) in action: it asks the result object
    for lists of violations, any number of times and depending on the answers, and ends with
    the text written or an exception.  It may also read the collector's file counters, hence
    the collector argument of [rp_report]. *)
Inductive reporting :=
| RDone (text : outcome str)
| RAsk (q : query) (k : list violation -> reporting).

Record reporter := { rp_name : str; rp_report : collector -> reporting }.

Record world := {
  (* opendir + readdir: entries in the order delivered; None: cannot be opened *)
  w_list : str -> option (list str);
  (* dlopen of a rule library: None fails; else the rules its static initialisers register *)
  w_rulelib : str -> option (list nat);
  (* dlopen of a reporter library: None fails; Some None: no "create" symbol *)
  w_replib : str -> option (option reporter);
  (* configuration files *)
  w_read : str -> option str;
  w_yaml : str -> configfile;
  w_env : penv;
  (* command line; None: rejected by LLVM's parser *)
  w_cmdline : option cmdline;
  w_listRules : bool;
  (* opening the report file *)
  w_canOpen : str -> bool;
  (* how many bytes the file system accepts for that file before writes start to fail *)
  w_accepts : str -> nat;
  (* rule objects *)
  w_rules : ruleenv;
  (* the driver: from the rules to run, the results recorded and how it ended *)
  w_driver : list nat -> collector * outcome unit;
  w_hash : violation -> Z
}.

(** ** oclint-driver/rules_dlfcn_port.cpp:9-31

    State: libraries already mapped (a second dlopen of the same file does not run its
    initialisers again; libraries are identified by path) and the rule registry. *)
Record lstate := { l_mapped : list str; l_rules : ruleset }.
Definition l_initial : lstate := {| l_mapped := []; l_rules := None |}.

Definition dlopen_rules (w : world) (p : str) (s : lstate) : option lstate :=
  match w_rulelib w p with
  | None => None
  | Some rs =>
      Some (if existsb (fun q => str_eqb q p) (l_mapped s) then s
            else {| l_mapped := l_mapped s ++ [p];
                    l_rules := fold_left rs_register (map Some rs) (l_rules s) |})
  end.

(** [dirp->d_name[0] == '.'] *)
Definition hidden (name : str) : bool :=
  match name with [] => false | c :: _ => ascii_eqb c "."%char end.

(** The while loop 15-28; exceptions keep the state reached.  The linker's message (24) is not
    modelled, here and for reporters. *)
Fixpoint load_entries (w : world) (dir : str) (entries : list str) (s : lstate)
  : lstate * outcome unit :=
  match entries with
  | [] => (s, Val tt)
  | n :: entries' =>
      if hidden n then load_entries w dir entries' s
      else
        let rulePath := dir ++ $"/" ++ n in
        match dlopen_rules w rulePath s with
        | None => (s, Exc ($"cannot open dynamic library: " ++ rulePath))
        | Some s' => load_entries w dir entries' s'
        end
  end.
Definition dynamicLoadRules (w : world) (dir : str) (s : lstate) : lstate * outcome unit :=
  match w_list w dir with
  | None => (s, Val tt)
  | Some entries => load_entries w dir entries s
  end.

(** oclint-driver/main.cpp:36-42 *)
Fixpoint consumeArgRulesPath (w : world) (dirs : list str) (s : lstate) : lstate * outcome unit :=
  match dirs with
  | [] => (s, Val tt)
  | d :: dirs' =>
      match dynamicLoadRules w d s with
      | (s', Val _) => consumeArgRulesPath w dirs' s'
      | r => r
      end
  end.

(** ** oclint-driver/reporters_dlfcn_port.cpp:12-55.  Answers the libraries opened too. *)
Fixpoint find_reporter (w : world) (dir type : str) (entries opened : list str)
  : list str * outcome (option reporter) :=
  match entries with
  | [] => (opened, Val None)
  | n :: entries' =>
      if hidden n then find_reporter w dir type entries' opened
      else
        let path := dir ++ $"/" ++ n in
        match w_replib w path with
        | None => (opened, Exc ($"cannot open dynamic library: " ++ path))
        | Some None => (opened ++ [path], UB)
        | Some (Some r) =>
            if str_eqb (rp_name r) type then (opened ++ [path], Val (Some r))
            else find_reporter w dir type entries' (opened ++ [path])
        end
  end.
Definition loadReporter (w : world) (dir type : str) : list str * outcome reporter :=
  let r := match w_list w dir with
           | None => ([], Val None)
           | Some entries => find_reporter w dir type entries []
           end in
  (fst r,
   obind (snd r) (fun o =>
     match o with
     | Some rep => Val rep
     | None => Exc ($"cannot find dynamic library for report type: " ++ type)
     end)).

(** ** main.cpp *)

(** Observable effects. *)
Inductive event :=
| EErr (text : str)                       (* written to standard error *)
| EOut (text : str)                       (* written to standard output *)
| EAnalyze (rules : list nat)             (* the driver runs *)
| EFile (path : str) (content : str).     (* file left with this content *)

Inductive ending := Exit (code : Z) | Terminated | Undefined.

(** ExitCode.h *)
Definition SUCCESS := 0%Z.
Definition RULE_NOT_FOUND := 1%Z.
Definition REPORTER_NOT_FOUND := 2%Z.
Definition ERROR_WHILE_PROCESSING := 3%Z.
Definition ERROR_WHILE_REPORTING := 4%Z.
Definition VIOLATIONS_EXCEED_THRESHOLD := 5%Z.
Definition COMPILATION_ERRORS := 6%Z.
Definition COMMON_OPTIONS_PARSER_ERRORS := 7%Z.

(** main.cpp:85-88 *)
Definition errorLine (msg : str) : event :=
  EErr ([NL] ++ $"oclint: error: " ++ msg ++ [NL]).

(** main.cpp:75-83 *)
Definition listRules (names : list str) : event :=
  EOut ($"Enabled rules:" ++ [NL] ++ flat_map (fun n => $"- " ++ n ++ [NL]) names ++ [NL]).

(** main.cpp:115-142 *)
Definition prepare (w : world) (s : ostate)
  : list event * lstate * (ending + reporter) :=
  let '(ls, o) := consumeArgRulesPath w (rulesPath (w_env w) s) l_initial in
  match o with
  | UB => ([], ls, inl Undefined)
  | Exc m => ([errorLine m], ls, inl (Exit RULE_NOT_FOUND))
  | Val _ =>
      if (numberOfRules (l_rules ls) <=? 0)%Z
      then ([errorLine $"no rule loaded"], ls, inl (Exit RULE_NOT_FOUND))
      else
        match snd (loadReporter w (reporterPath (w_env w)) (reportType s)) with
        | UB => ([], ls, inl Undefined)
        | Exc m => ([errorLine m], ls, inl (Exit REPORTER_NOT_FOUND))
        | Val r => ([], ls, inr r)
        end
  end.

(** main.cpp:44-49: [||] evaluates left to right and stops at the first true operand. *)
Definition priority_exceeds (w : world) (c : collector) (r : results) (p limit : Z)
  : outcome bool * results :=
  let '(l, r') := ask (w_hash w) c r QViolations in
  (obind (numberOfViolationsWithPriority (w_rules w) l p) (fun n => Val (limit <? n)%Z), r').
Definition numberOfViolationsExceedThreshold (w : world) (s : ostate) (c : collector) (r : results)
  : outcome bool * results :=
  match priority_exceeds w c r 1 (maxP1 s) with
  | (Val false, r1) =>
      match priority_exceeds w c r1 2 (maxP2 s) with
      | (Val false, r2) => priority_exceeds w c r2 3 (maxP3 s)
      | x => x
      end
  | x => x
  end.

(** main.cpp:90-99 *)
Definition exceedMessage (n1 n2 n3 : Z) (s : ostate) : event :=
  EErr ($"P1=" ++ show_Z n1 ++ $"[" ++ show_Z (maxP1 s) ++ $"] " ++
        $"P2=" ++ show_Z n2 ++ $"[" ++ show_Z (maxP2 s) ++ $"] " ++
        $"P3=" ++ show_Z n3 ++ $"[" ++ show_Z (maxP3 s) ++ $"] " ++ [NL]).
Definition printViolationsExceedThresholdError (w : world) (s : ostate) (c : collector) (r : results)
  : list event * outcome unit :=
  let '(l1, r1) := ask (w_hash w) c r QViolations in
  let '(l2, r2) := ask (w_hash w) c r1 QViolations in
  let '(l3, r3) := ask (w_hash w) c r2 QViolations in
  match numberOfViolationsWithPriority (w_rules w) l1 1,
        numberOfViolationsWithPriority (w_rules w) l2 2,
        numberOfViolationsWithPriority (w_rules w) l3 3 with
  | Val n1, Val n2, Val n3 =>
      ([errorLine $"violations exceed threshold"; exceedMessage n1 n2 n3 s], Val tt)
  | _, _, _ => ([errorLine $"violations exceed threshold"], UB)
  end.

(** main.cpp:153-167 *)
Definition handleExit (w : world) (s : ostate) (c : collector) (r : results)
  : list event * ending :=
  let '(errs, r1) := ask (w_hash w) c r QErrors in
  if hasList errs then ([], Exit COMPILATION_ERRORS)
  else
    match numberOfViolationsExceedThreshold w s c r1 with
    | (Val true, r2) =>
        match printViolationsExceedThresholdError w s c r2 with
        | (ev, Val _) => (ev, Exit VIOLATIONS_EXCEED_THRESHOLD)
        | (ev, _) => (ev, Undefined)
        end
    | (Val false, _) => ([], Exit SUCCESS)
    | (_, _) => ([], Undefined)
    end.

(** The reporter's questions answered by the result object. *)
Fixpoint run_reporting (w : world) (c : collector) (r : results) (p : reporting)
  : outcome str * results :=
  match p with
  | RDone o => (o, r)
  | RAsk q k => let '(l, r') := ask (w_hash w) c r q in run_reporting w c r' (k l)
  end.

(** main.cpp:51-73, 202-216: open, report, close.  The result of [close] and the stream
    state are not checked.  Simplification: the reporter's text is written in one go; when the
    reporter raises, what it wrote before is not modelled (the file exists with some
    prefix, taken empty here). *)
Definition report_stage (w : world) (s : ostate) (c : collector) (r : results) (rep : reporter)
  : list event * (ending + results) :=
  if negb (hasOutputPath s) then
    match run_reporting w c r (rp_report rep c) with
    | (Val text, r') => ([EOut text], inr r')
    | (Exc m, _) => ([errorLine m], inl (Exit ERROR_WHILE_REPORTING))
    | (UB, _) => ([], inl Undefined)
    end
  else
    match outputPath (w_env w) s with
    | UB => ([], inl Undefined)
    | Exc m => ([errorLine m], inl (Exit ERROR_WHILE_REPORTING))
    | Val path =>
        if negb (w_canOpen w path)
        then ([errorLine ($"cannot open report output file " ++ path)],
              inl (Exit ERROR_WHILE_REPORTING))
        else
          match run_reporting w c r (rp_report rep c) with
          | (Val text, r') => ([EFile path (firstn (w_accepts w path) text)], inr r')
          | (Exc m, _) => ([EFile path []; errorLine m], inl (Exit ERROR_WHILE_REPORTING))
          | (UB, _) => ([], inl Undefined)
          end
    end.

(** main.cpp:169-219 *)
Definition main (w : world) : list event * ending :=
  match w_cmdline w with
  | None => ([], Exit COMMON_OPTIONS_PARSER_ERRORS)     (* LLVM's message not modelled *)
  | Some cl =>
      match process (w_read w) (w_yaml w) (w_env w) cl with
      | Exc _ => ([], Terminated)
      | UB => ([], Undefined)
      | Val s =>
          match prepare w s with
          | (ev0, _, inl e) => (ev0, e)
          | (ev0, ls, inr rep) =>
              match filteredRules (w_rules w) (os_filter s) (l_rules ls) with
              | Exc _ => (ev0, Terminated)
              | UB => (ev0, Undefined)
              | Val rules =>
                  let ev1 := ev0 ++ (if w_listRules w
                               then [listRules (map (fun a => ri_identifier (w_rules w a)) rules)]
                               else []) ++ [EAnalyze rules] in
                  let '(c, o) := w_driver w rules in
                  match o with
                  | UB => (ev1, Undefined)
                  | Exc m => (ev1 ++ [errorLine m], Exit ERROR_WHILE_PROCESSING)
                  | Val _ =>
                      match report_stage w s c (getResults (allowDuplicatedViolations s)) rep with
                      | (ev2, inl e) => (ev1 ++ ev2, e)
                      | (ev2, inr r) =>
                          let '(ev3, e) := handleExit w s c r in (ev1 ++ ev2 ++ ev3, e)
                      end
                  end
              end
          end
      end
  end.
