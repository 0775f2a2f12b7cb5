(** * Model of oclint-reporters *)
From Verif Require Import Base ModelResults ModelConfig ModelFilter ModelOptions ModelMain.

(** ** Writing.  A reporter is a [reporting] (ModelMain): it asks the result object and ends with
    the text written.  [std::endl] is a line feed here. *)
Fixpoint rbind (p : reporting) (f : str -> reporting) : reporting :=
  match p with
  | RDone (Val s) => f s
  | RDone o => RDone o
  | RAsk q k => RAsk q (fun l => rbind (k l) f)
  end.
Definition out (s : str) : reporting := RDone (Val s).
Definition thenWrite (a b : reporting) : reporting := rbind a (fun s => rbind b (fun t => out (s ++ t))).
Notation "a >>> b" := (thenWrite a b) (at level 61, right associativity).
Definition endl : reporting := out [NL].
(** A range-based for over a vector of violations. *)
Fixpoint forEach (f : violation -> reporting) (l : list violation) : reporting :=
  match l with [] => out [] | v :: l' => f v >>> forEach f l' end.
(** Dereferencing [violation.rule] *)
Definition withRule (env : ruleenv) (v : violation) (k : ruleinfo -> reporting) : reporting :=
  match v_rule v with Some a => k (env a) | None => RDone UB end.
(** AbstractResults.cpp:38-80 as called by reporters *)
Definition askPriority (env : ruleenv) (p : Z) : reporting :=
  RAsk QViolations (fun l => match numberOfViolationsWithPriority env l p with
                             | Val n => out (show_Z n) | Exc w => RDone (Exc w) | UB => RDone UB end).
Definition ifAny (q : query) (body : reporting) : reporting :=
  RAsk q (fun l => if hasList l then body else out []).

(** oclint-core/lib/Constants.cpp:5-13 *)
Definition version : str := $"24.11".
Definition homepage : str := $"https://oclint.org".

(** ** TextReporter.cpp *)
Definition location (v : violation) : str :=
  v_path v ++ $":" ++ show_Z (v_startLine v) ++ $":" ++ show_Z (v_startColumn v).
(** :64-71 *)
Definition text_writeViolation (env : ruleenv) (v : violation) : reporting :=
  withRule env v (fun rule =>
    out (location v ++ $": " ++ ri_name rule ++ $" [" ++ ri_category rule ++ $"|P" ++ show_Z (ri_priority rule) ++ $"]"
         ++ $" " ++ v_message v)).
(** :82-86 *)
Definition writeCompilerErrorOrWarning (v : violation) : reporting := out (location v ++ $": " ++ v_message v).
(** :88-97 *)
Definition writeCompilerDiagnostics (q : query) (headerText : str) : reporting :=
  RAsk q (fun l => endl >>> out headerText >>> endl >>> endl >>> forEach (fun v => writeCompilerErrorOrWarning v >>> endl) l).
(** :55-62 *)
Definition text_writeSummary (env : ruleenv) (c : collector) : reporting :=
  out ($"Summary: TotalFiles=" ++ show_Z (numberOfFiles c) ++ $" ")
  >>> out ($"FilesWithViolations=" ++ show_Z (numberOfFilesWithViolations c) ++ $" ")
  >>> out $"P1=" >>> askPriority env 1 >>> out $" "
  >>> out $"P2=" >>> askPriority env 2 >>> out $" "
  >>> out $"P3=" >>> askPriority env 3 >>> out $" ".
(** :17-53 *)
Definition TextReporter (env : ruleenv) : reporter :=
  {| rp_name := $"text";
     rp_report c :=
       ifAny QErrors (writeCompilerDiagnostics QErrors
         ($"Compiler Errors:" ++ [NL] ++ $"(please be aware that these errors will prevent OCLint from analyzing this source code)"))
       >>> ifAny QWarnings (writeCompilerDiagnostics QWarnings $"Compiler Warnings:")
       >>> ifAny QBugs (writeCompilerDiagnostics QBugs $"Clang Static Analyzer Results:")
       >>> endl >>> endl >>> out $"OCLint Report" >>> endl >>> endl
       >>> text_writeSummary env c >>> endl >>> endl
       >>> RAsk QViolations (forEach (fun v => text_writeViolation env v >>> endl))
       >>> endl >>> out ($"[OCLint (" ++ homepage ++ $") v" ++ version ++ $"]") >>> endl |}.

(** ** XcodeReporter.cpp:16-36 *)
Definition xcode_writeViolation (env : ruleenv) (v : violation) : reporting :=
  withRule env v (fun rule =>
    out (location v ++ $": warning: " ++ ri_name rule ++ $" [" ++ ri_category rule ++ $"|P" ++ show_Z (ri_priority rule) ++ $"]"
         ++ $" " ++ v_message v)).
Definition XcodeReporter (env : ruleenv) : reporter :=
  {| rp_name := $"xcode"; rp_report c := RAsk QViolations (forEach (fun v => xcode_writeViolation env v >>> endl)) |}.

(** ** JSONReporter.cpp *)
Definition QUOTE : ascii := """"%char.
(** :62-87 *)
Definition writeKey (key : str) : reporting := out ([QUOTE] ++ key ++ [QUOTE] ++ $":").
Definition writeComma (isLast : bool) : reporting := if isLast then out [] else out $",".
Definition writeKeyString (key value : str) (last : bool) : reporting :=
  writeKey key >>> out ([QUOTE] ++ value ++ [QUOTE]) >>> writeComma last.
Definition writeKeyInt (key : str) (value : Z) (last : bool) : reporting :=
  writeKey key >>> out (show_Z value) >>> writeComma last.
(** Conversion of a [long] to [int], modulo 2^32 with the compilers in use *)
Definition to_int (z : Z) : Z := ((z + 2147483648) mod 4294967296 - 2147483648)%Z.
(** :54-60; [now] is what time() answers *)
Definition json_writeHeader (now : Z) : reporting :=
  writeKeyString $"version" version false >>> writeKeyString $"url" homepage false >>> writeKeyInt $"timestamp" (to_int now) false.
(** :89-109 *)
Definition json_writeViolation (env : ruleenv) (v : violation) : reporting :=
  out $"{" >>> writeKeyString $"path" (v_path v) false
  >>> writeKeyInt $"startLine" (v_startLine v) false >>> writeKeyInt $"startColumn" (v_startColumn v) false
  >>> (if negb (v_endLine v =? 0)%Z && negb (v_endColumn v =? 0)%Z
       then writeKeyInt $"endLine" (v_endLine v) false >>> writeKeyInt $"endColumn" (v_endColumn v) false else out [])
  >>> match v_rule v with
      | Some a => writeKeyString $"rule" (ri_name (env a)) false >>> writeKeyString $"category" (ri_category (env a)) false
                  >>> writeKeyInt $"priority" (ri_priority (env a)) false
      | None => out []
      end
  >>> writeKeyString $"message" (v_message v) true >>> out $"}".
(** :111-117 *)
Definition writePriority (env : ruleenv) (p : Z) : reporting :=
  out $"{" >>> writeKeyInt $"priority" p false >>> writeKey $"number" >>> askPriority env p >>> writeComma true >>> out $"}".
(** :119-133 *)
Definition json_writeSummary (env : ruleenv) (c : collector) : reporting :=
  writeKey $"summary" >>> out $"{" >>> writeKeyInt $"numberOfFiles" (numberOfFiles c) false
  >>> writeKeyInt $"numberOfFilesWithViolations" (numberOfFilesWithViolations c) false
  >>> writeKey $"numberOfViolationsWithPriority" >>> out $"["
  >>> writePriority env 1 >>> out $"," >>> writePriority env 2 >>> out $"," >>> writePriority env 3 >>> out $"]},".
(** :27-35: from [index] on, [numberOfViolations] being size() as an [int]; vectors longer than
    INT_MAX are beyond the model (the loop would end at once). *)
Fixpoint json_loop (env : ruleenv) (l : list violation) (index : nat) : reporting :=
  match l with
  | [] => out []
  | v :: l' => (if index =? 0 then out [] else out $",") >>> json_writeViolation env v >>> json_loop env l' (S index)
  end.
(** :19-52 *)
Definition JSONReporter (env : ruleenv) (now : Z) : reporter :=
  {| rp_name := $"json";
     rp_report c :=
       out $"{" >>> json_writeHeader now >>> json_writeSummary env c
       >>> writeKey $"violation" >>> out $"[" >>> RAsk QViolations (fun l => json_loop env l 0) >>> out $"],"
       >>> writeKey $"clangStaticAnalyzer" >>> out $"[" >>> RAsk QBugs (fun l => json_loop env l 0) >>> out $"]"
       >>> out $"}" >>> endl |}.

(** ** XMLReporter.cpp *)
(** What gmtime() answers; [None] is the null pointer. *)
Record tm := { tm_year : Z; tm_mon : Z; tm_mday : Z; tm_hour : Z; tm_min : Z; tm_sec : Z }.
(** printf's %0ni for [int] *)
Definition pad0 (width : nat) (z : Z) : str :=
  let d := show_nonneg (Z.abs z) in
  let sign := if (z <? 0)%Z then $"-" else [] in
  sign ++ repeat "0"%char (width - length sign - length d) ++ d.
(** :48-63; snprintf keeps 27 characters *)
Definition writeDatetime (now : option tm) : reporting :=
  match now with
  | None => RDone UB
  | Some t =>
      if in_intb (tm_year t + 1900) then
        out ($"<datetime>" ++ firstn 27 (pad0 4 (tm_year t + 1900) ++ $"-" ++ pad0 2 (tm_mon t) ++ $"-" ++ pad0 2 (tm_mday t) ++ $"T"
               ++ pad0 2 (tm_hour t) ++ $":" ++ pad0 2 (tm_min t) ++ $":" ++ pad0 2 (tm_sec t) ++ $"Z") ++ $"</datetime>")
      else RDone UB
  end.
(** :41-46 *)
Definition xml_writeHeader : reporting :=
  out ($"<?xml version=" ++ [QUOTE] ++ $"1.0" ++ [QUOTE] ++ $" encoding=" ++ [QUOTE] ++ $"UTF-8" ++ [QUOTE] ++ $" ?>")
  >>> out ($"<oclint version=" ++ [QUOTE] ++ version ++ [QUOTE] ++ $" url=" ++ [QUOTE] ++ homepage ++ [QUOTE] ++ $">").
(** :92-96 *)
Definition writeViolationAttribute (key value : str) : reporting := out ($" " ++ key ++ $"=" ++ [QUOTE] ++ value ++ [QUOTE]).
(** :70-90 *)
Definition xml_writeViolation (env : ruleenv) (v : violation) : reporting :=
  out $"<violation" >>> writeViolationAttribute $"path" (v_path v)
  >>> writeViolationAttribute $"startline" (show_Z (v_startLine v))
  >>> writeViolationAttribute $"startcolumn" (show_Z (v_startColumn v))
  >>> (if negb (v_endLine v =? 0)%Z && negb (v_endColumn v =? 0)%Z
       then writeViolationAttribute $"endline" (show_Z (v_endLine v))
            >>> writeViolationAttribute $"endcolumn" (show_Z (v_endColumn v)) else out [])
  >>> match v_rule v with
      | Some a => writeViolationAttribute $"rule" (ri_name (env a)) >>> writeViolationAttribute $"category" (ri_category (env a))
                  >>> writeViolationAttribute $"priority" (show_Z (ri_priority (env a)))
      | None => out []
      end
  >>> writeViolationAttribute $"message" (v_message v) >>> out $"></violation>".
(** :112-116 *)
Definition writeSummaryProperty (key : str) (value : reporting) : reporting :=
  out ($"<property name=" ++ [QUOTE] ++ key ++ [QUOTE] ++ $">") >>> value >>> out $"</property>".
(** :98-110 *)
Definition xml_writeSummary (env : ruleenv) (c : collector) : reporting :=
  out $"<summary>"
  >>> writeSummaryProperty $"number of files" (out (show_Z (numberOfFiles c)))
  >>> writeSummaryProperty $"files with violations" (out (show_Z (numberOfFilesWithViolations c)))
  >>> writeSummaryProperty $"number of priority 1 violations" (askPriority env 1)
  >>> writeSummaryProperty $"number of priority 2 violations" (askPriority env 2)
  >>> writeSummaryProperty $"number of priority 3 violations" (askPriority env 3)
  >>> out $"</summary>".
(** :20-39, 65-68 *)
Definition XMLReporter (env : ruleenv) (now : option tm) : reporter :=
  {| rp_name := $"xml";
     rp_report c :=
       xml_writeHeader >>> writeDatetime now >>> xml_writeSummary env c
       >>> out $"<violations>" >>> RAsk QViolations (forEach (xml_writeViolation env)) >>> out $"</violations>"
       >>> out $"<clangstaticanalyzer>" >>> RAsk QBugs (forEach (xml_writeViolation env)) >>> out $"</clangstaticanalyzer>"
       >>> out $"</oclint>" >>> endl |}.

(** ** PMDReporter.cpp *)
(** :12-35.  Simplification: 2 * priority - 1 does not overflow (priorities are 1, 2 or 3). *)
Record pmdrule := { pd_name : str; pd_category : str; pd_priority : Z }.
Definition pmdrule_of (r : ruleinfo) : pmdrule :=
  {| pd_name := ri_name r; pd_category := ri_category r; pd_priority := (2 * ri_priority r - 1)%Z |}.
Definition pmdrule_write (d : pmdrule) : reporting :=
  out ($"priority=" ++ [QUOTE] ++ show_Z (pd_priority d) ++ [QUOTE] ++ $" ")
  >>> out ($"rule=" ++ [QUOTE] ++ pd_name d ++ [QUOTE] ++ $" ")
  >>> out ($"ruleset=" ++ [QUOTE] ++ pd_category d ++ [QUOTE] ++ $" ").
(** :100-129 *)
Definition xmlEscape (data : str) : str :=
  flat_map (fun c =>
    if ascii_eqb c "<"%char then $"&lt;" else if ascii_eqb c ">"%char then $"&gt;"
    else if ascii_eqb c QUOTE then $"&quot;" else if ascii_eqb c "&"%char then $"&amp;"
    else if ascii_eqb c "'"%char then $"&apos;" else [c]) data.
(** :80-98 *)
Definition pmd_writeViolation (v : violation) (d : option pmdrule) : reporting :=
  out ($"<file name=" ++ [QUOTE] ++ v_path v ++ [QUOTE] ++ $">") >>> endl >>> out $"<violation "
  >>> out ($"begincolumn=" ++ [QUOTE] ++ show_Z (v_startColumn v) ++ [QUOTE] ++ $" ")
  >>> out ($"endcolumn=" ++ [QUOTE] ++ show_Z (v_endColumn v) ++ [QUOTE] ++ $" ")
  >>> out ($"beginline=" ++ [QUOTE] ++ show_Z (v_startLine v) ++ [QUOTE] ++ $" ")
  >>> out ($"endline=" ++ [QUOTE] ++ show_Z (v_endLine v) ++ [QUOTE] ++ $" ")
  >>> match d with Some d => pmdrule_write d | None => out [] end
  >>> out $">" >>> endl >>> out (xmlEscape (v_message v)) >>> endl
  >>> out $"</violation>" >>> endl >>> out $"</file>" >>> endl.
Definition pmd_fixed (name : str) (priority : Z) (v : violation) : reporting :=
  pmd_writeViolation v (Some {| pd_name := name; pd_category := $"clang"; pd_priority := priority |}).
(** :37-78, 137-161 *)
Definition PMDReporter (env : ruleenv) : reporter :=
  {| rp_name := $"pmd";
     rp_report c :=
       out ($"<?xml version=" ++ [QUOTE] ++ $"1.0" ++ [QUOTE] ++ $" encoding=" ++ [QUOTE] ++ $"UTF-8" ++ [QUOTE] ++ $"?>") >>> endl
       >>> out ($"<pmd version=" ++ [QUOTE] ++ $"oclint-" ++ version ++ [QUOTE] ++ $">")
       >>> RAsk QErrors (forEach (fun v => pmd_fixed $"compiler error" 1 v >>> endl))
       >>> RAsk QWarnings (forEach (fun v => pmd_fixed $"compiler warning" 2 v >>> endl))
       >>> RAsk QViolations (forEach (fun v =>
             pmd_writeViolation v (match v_rule v with Some a => Some (pmdrule_of (env a)) | None => None end) >>> endl))
       >>> RAsk QBugs (forEach (fun v => pmd_fixed $"clang static analyzer" 2 v >>> endl))
       >>> out $"</pmd>" |}.

(** ** HTMLReporter.cpp *)
(** :69-79 *)
Definition html_writeViolation (env : ruleenv) (v : violation) : reporting :=
  out ($"<tr><td>" ++ v_path v ++ $"</td><td>" ++ show_Z (v_startLine v) ++ $":" ++ show_Z (v_startColumn v) ++ $"</td>")
  >>> withRule env v (fun rule =>
    out ($"<td>" ++ ri_name rule ++ $"</td>" ++ $"<td>" ++ ri_category rule ++ $"</td>"
         ++ $"<td class='priority" ++ show_Z (ri_priority rule) ++ $"'>" ++ show_Z (ri_priority rule) ++ $"</td>"
         ++ $"<td>" ++ v_message v ++ $"</td></tr>")).
(** :81-97 *)
Definition html_diagnostic (level : str) (v : violation) : reporting :=
  out ($"<tr><td>" ++ v_path v ++ $"</td><td>" ++ show_Z (v_startLine v) ++ $":" ++ show_Z (v_startColumn v) ++ $"</td>"
       ++ $"<td>compiler " ++ level ++ $"</td><td></td><td class='cmplr-" ++ level ++ $"'>"
       ++ level ++ $"</td><td>" ++ v_message v ++ $"</td></tr>").
(** :99-108 *)
Definition html_checkerBug (v : violation) : reporting :=
  out ($"<tr><td>" ++ v_path v ++ $"</td><td>" ++ show_Z (v_startLine v) ++ $":" ++ show_Z (v_startColumn v) ++ $"</td>"
       ++ $"<td>clang static analyzer</td><td></td><td class='checker-bug'>" ++ $"checker bug</td><td>" ++ v_message v ++ $"</td></tr>").
(** :110-125 *)
Definition askSize (q : query) : reporting := RAsk q (fun l => out (show_Z (Z.of_nat (length l)))).
Definition writeSummaryTable (env : ruleenv) (c : collector) : reporting :=
  out ($"<table><thead><tr><th>Total Files</th><th>Files with Violations</th>"
       ++ $"<th>Priority 1</th><th>Priority 2</th><th>Priority 3</th>"
       ++ $"<th>Compiler Errors</th><th>Compiler Warnings</th>" ++ $"<th>Clang Static Analyzer</th></tr></thead>")
  >>> out ($"<tbody><tr><td>" ++ show_Z (numberOfFiles c) ++ $"</td><td>"
       ++ show_Z (numberOfFilesWithViolations c) ++ $"</td><td class='priority1'>")
  >>> askPriority env 1 >>> out $"</td><td class='priority2'>"
  >>> askPriority env 2 >>> out $"</td><td class='priority3'>"
  >>> askPriority env 3 >>> out $"</td><td class='cmplr-error'>"
  >>> askSize QErrors >>> out $"</td><td class='cmplr-warning'>"
  >>> askSize QWarnings >>> out $"</td><td class='checker-bug'>"
  >>> askSize QBugs >>> out $"</td></tr></tbody></table>".
(** :29-36 *)
Definition html_tableHead : str :=
  $"<table id=" ++ [QUOTE] ++ $"violations-table" ++ [QUOTE] ++ $"><thead><tr>"
  ++ flat_map (fun p => $"<th onclick=" ++ [QUOTE] ++ $"sortTable(" ++ fst p ++ $")" ++ [QUOTE] ++ $" class=" ++ [QUOTE] ++ $"sortable" ++ [QUOTE]
       ++ $">" ++ snd p ++ $"</th>")
     [($"0", $"File"); ($"1", $"Location"); ($"2", $"Rule Name"); ($"3", $"Rule Category"); ($"4", $"Priority"); ($"5", $"Message")]
  ++ $"</tr></thead><tbody>".
(** :19-67.  [head] is the constant text writeHead (:127-179) writes, style sheet and script;
    [now] what ctime() answers. *)
Definition HTMLReporter (head now : str) (env : ruleenv) : reporter :=
  {| rp_name := $"html";
     rp_report c :=
       out $"<!DOCTYPE html>" >>> out $"<html>" >>> out head >>> out $"<body>" >>> out $"<h1>OCLint Report</h1>" >>> out $"<h2>Summary</h2>"
       >>> writeSummaryTable env c >>> out $"<h2>Details</h2>" >>> out html_tableHead
       >>> RAsk QViolations (forEach (html_writeViolation env))
       >>> ifAny QErrors (RAsk QErrors (forEach (html_diagnostic $"error")))
       >>> ifAny QWarnings (RAsk QWarnings (forEach (html_diagnostic $"warning")))
       >>> ifAny QBugs (RAsk QBugs (forEach html_checkerBug))
       >>> out $"</tbody></table>" >>> out $"<hr />"
       >>> out ($"<p>" ++ now ++ $"| Generated with <a href='" ++ homepage ++ $"'>" ++ $"OCLint v" ++ version ++ $"</a>.</p>")
       >>> out $"</body>" >>> out $"</html>" >>> endl |}.
