(** * Specification vocabulary for reports *)
From Verif Require Import Base ModelResults SpecResults SpecConfig ModelMain SpecMain SpecJSON SpecXML ModelReporters.

(** ** What there is to report *)
Record rulefact := { r_name : str; r_category : str; r_priority : Z }.
Record entry := {
  e_path : str; e_line : Z; e_column : Z; e_endLine : Z; e_endColumn : Z;
  e_rule : option rulefact; e_message : str }.
Record view := {
  vw_violations : list entry; vw_errors : list entry; vw_warnings : list entry; vw_bugs : list entry;
  vw_files : Z; vw_filesWithViolations : Z }.
Definition entry_of (env : ruleenv) (v : violation) : entry :=
  {| e_path := v_path v; e_line := v_startLine v; e_column := v_startColumn v;
     e_endLine := v_endLine v; e_endColumn := v_endColumn v;
     e_rule := match v_rule v with
               | Some a => Some {| r_name := ri_name (env a); r_category := ri_category (env a); r_priority := ri_priority (env a) |}
               | None => None end;
     e_message := v_message v |}.
(** The results of a run, with or without repetitions: [V] is what there is to report. *)
Definition presents (env : ruleenv) (dup : bool) (c : collector) (V : view) : Prop :=
  (exists l, shows dup c QViolations l /\ vw_violations V = map (entry_of env) l)
  /\ (exists l, shows dup c QErrors l /\ vw_errors V = map (entry_of env) l)
  /\ (exists l, shows dup c QWarnings l /\ vw_warnings V = map (entry_of env) l)
  /\ (exists l, shows dup c QBugs l /\ vw_bugs V = map (entry_of env) l)
  /\ vw_files V = Z.of_nat (length (c_collection c))
  /\ (exists n, distinct_count (flat_map first_path (c_collection c)) n /\ vw_filesWithViolations V = Z.of_nat n).
(** Every violation comes from a rule. *)
Definition ruled_view (V : view) : Prop := Forall (fun e => e_rule e <> None) (vw_violations V).
(** The reporter [r] ends with [o] on these results. *)
Definition reports (r : reporter) (dup : bool) (c : collector) (o : outcome str) : Prop :=
  session (shows dup c) (rp_report r c) o.
(** Number of violations of a priority. *)
Definition of_priority (p : Z) (e : entry) : bool :=
  match e_rule e with Some r => Z.eqb (r_priority r) p | None => false end.
Definition count_of (p : Z) (V : view) : Z := Z.of_nat (length (filter (of_priority p) (vw_violations V))).

(** [t] is the decimal numeral of [z]: no superfluous zero, a minus sign for negative numbers. *)
Definition decimal (z : Z) (t : str) : Prop :=
  exists ds, ds <> [] /\ Forall (fun c => isdigit c = true) ds /\ (forall d r, ds = "0"%char :: d :: r -> False)
  /\ (((0 <= z)%Z /\ t = ds /\ value_of_digits ds = z) \/ ((z < 0)%Z /\ t = "-"%char :: ds /\ value_of_digits ds = (- z)%Z)).

(** ** Line formats *)
Definition at_place (e : entry) : str := e_path e ++ $":" ++ show_Z (e_line e) ++ $":" ++ show_Z (e_column e) ++ $": ".
Definition tag (r : rulefact) : str := r_name r ++ $" [" ++ r_category r ++ $"|P" ++ show_Z (r_priority r) ++ $"] ".
Definition finding_line (kind : str) (e : entry) : str :=
  at_place e ++ kind ++ match e_rule e with Some r => tag r | None => [] end ++ e_message e ++ [NL].
Definition diagnostic_line (e : entry) : str := at_place e ++ e_message e ++ [NL].

Definition xcode_text (V : view) : str := concat (map (finding_line $"warning: ") (vw_violations V)).

Definition section (title : str) (es : list entry) : str :=
  match es with [] => [] | _ => [NL] ++ title ++ [NL; NL] ++ concat (map diagnostic_line es) end.
Definition errors_title : str :=
  $"Compiler Errors:" ++ [NL] ++ $"(please be aware that these errors will prevent OCLint from analyzing this source code)".
Definition text_text (V : view) : str :=
  section errors_title (vw_errors V) ++ section $"Compiler Warnings:" (vw_warnings V)
  ++ section $"Clang Static Analyzer Results:" (vw_bugs V)
  ++ [NL; NL] ++ $"OCLint Report" ++ [NL; NL]
  ++ $"Summary: TotalFiles=" ++ show_Z (vw_files V) ++ $" FilesWithViolations=" ++ show_Z (vw_filesWithViolations V)
  ++ $" P1=" ++ show_Z (count_of 1 V) ++ $" P2=" ++ show_Z (count_of 2 V) ++ $" P3=" ++ show_Z (count_of 3 V) ++ $" " ++ [NL; NL]
  ++ concat (map (finding_line []) (vw_violations V))
  ++ [NL] ++ $"[OCLint (https://oclint.org) v24.11]" ++ [NL].

(** What the Xcode line keeps, and the condition under which it can be read back. *)
Definition place_and_rule (e : entry) := (e_path e, e_line e, e_column e, e_rule e, e_message e).
Definition place_and_message (e : entry) := (e_path e, e_line e, e_column e, e_message e).
Definition readable (e : entry) : Prop :=
  ~ In ":"%char (e_path e) /\ ~ In NL (e_path e) /\ ~ In NL (e_message e)
  /\ (forall r, e_rule e = Some r -> ~ In "["%char (r_name r) /\ ~ In "|"%char (r_category r)).

(** ** JSON *)
Definition jint (z : Z) : json := JNumber (show_Z z).
Definition obj (l : list (str * json)) : json := JObject (map (fun p => (map JByte (fst p), snd p)) l).
(** A 64-bit time as a 32-bit number. *)
Definition wraps_to (z n : Z) : Prop := in_int n /\ exists k, n = (z + k * 4294967296)%Z.
Definition entry_json (e : entry) : json :=
  obj ([($"path", jstr (e_path e)); ($"startLine", jint (e_line e)); ($"startColumn", jint (e_column e))]
       ++ (if Z.eqb (e_endLine e) 0 || Z.eqb (e_endColumn e) 0 then []
           else [($"endLine", jint (e_endLine e)); ($"endColumn", jint (e_endColumn e))])
       ++ match e_rule e with
          | Some r => [($"rule", jstr (r_name r)); ($"category", jstr (r_category r)); ($"priority", jint (r_priority r))]
          | None => [] end
       ++ [($"message", jstr (e_message e))]).
Definition priority_json (V : view) (p : Z) : json := obj [($"priority", jint p); ($"number", jint (count_of p V))].
Definition view_json (timestamp : Z) (V : view) : json :=
  obj [($"version", jstr $"24.11"); ($"url", jstr $"https://oclint.org"); ($"timestamp", jint timestamp);
       ($"summary", obj [($"numberOfFiles", jint (vw_files V));
                         ($"numberOfFilesWithViolations", jint (vw_filesWithViolations V));
                         ($"numberOfViolationsWithPriority", JArray (map (priority_json V) [1; 2; 3]%Z))]);
       ($"violation", JArray (map entry_json (vw_violations V)));
       ($"clangStaticAnalyzer", JArray (map entry_json (vw_bugs V)))].
(** What the formats keep: the end only when both of its numbers are not zero. *)
Definition with_known_end (e : entry) : entry :=
  if Z.eqb (e_endLine e) 0 || Z.eqb (e_endColumn e) 0
  then {| e_path := e_path e; e_line := e_line e; e_column := e_column e; e_endLine := 0; e_endColumn := 0;
          e_rule := e_rule e; e_message := e_message e |}
  else e.
Definition texts_of (e : entry) : list str :=
  [e_path e; e_message e] ++ match e_rule e with Some r => [r_name r; r_category r] | None => [] end.
Definition json_plain (s : str) : Prop := Forall (fun c => 32 <= code c /\ c <> """"%char /\ c <> "\"%char) s.

(** ** XML *)
Definition xml_plain (s : str) : Prop := Forall (fun c => 32 <= code c /\ c <> """"%char /\ c <> "<"%char /\ c <> "&"%char) s.
Definition entry_xml (e : entry) : xml :=
  Element $"violation"
    ([($"path", e_path e); ($"startline", show_Z (e_line e)); ($"startcolumn", show_Z (e_column e))]
     ++ (if Z.eqb (e_endLine e) 0 || Z.eqb (e_endColumn e) 0 then []
         else [($"endline", show_Z (e_endLine e)); ($"endcolumn", show_Z (e_endColumn e))])
     ++ match e_rule e with
        | Some r => [($"rule", r_name r); ($"category", r_category r); ($"priority", show_Z (r_priority r))]
        | None => [] end
     ++ [($"message", e_message e)]) [].
Definition property_xml (name : str) (z : Z) : xml := Element $"property" [($"name", name)] [Text (show_Z z)].
Definition view_xml (date : str) (V : view) : xml :=
  Element $"oclint" [($"version", $"24.11"); ($"url", $"https://oclint.org")]
    [Element $"datetime" [] [Text date];
     Element $"summary" []
       [property_xml $"number of files" (vw_files V); property_xml $"files with violations" (vw_filesWithViolations V);
        property_xml $"number of priority 1 violations" (count_of 1 V);
        property_xml $"number of priority 2 violations" (count_of 2 V);
        property_xml $"number of priority 3 violations" (count_of 3 V)];
     Element $"violations" [] (map entry_xml (vw_violations V));
     Element $"clangstaticanalyzer" [] (map entry_xml (vw_bugs V))].

(** ** PMD *)
Definition pmd_xml (p : entry * option rulefact) : list xml :=
  let '(e, r) := p in
  [Element $"file" [($"name", e_path e)]
     [Text [NL];
      Element $"violation"
        ([($"begincolumn", show_Z (e_column e)); ($"endcolumn", show_Z (e_endColumn e));
          ($"beginline", show_Z (e_line e)); ($"endline", show_Z (e_endLine e))]
         ++ match r with
            | Some r => [($"priority", show_Z (r_priority r)); ($"rule", r_name r); ($"ruleset", r_category r)]
            | None => [] end)
        [Text ([NL] ++ e_message e ++ [NL])];
      Text [NL]];
   Text [NL; NL]].
(** Priorities 1, 2, 3 become 1, 3, 5; errors count as 1, warnings and static analyzer bugs as 2. *)
Definition pmd_rule (r : rulefact) : rulefact :=
  {| r_name := r_name r; r_category := r_category r; r_priority := (2 * r_priority r - 1)%Z |}.
Definition clang_rule (name : str) (priority : Z) : option rulefact :=
  Some {| r_name := name; r_category := $"clang"; r_priority := priority |}.
Definition pmd_findings (V : view) : list (entry * option rulefact) :=
  map (fun e => (e, clang_rule $"compiler error" 1)) (vw_errors V)
  ++ map (fun e => (e, clang_rule $"compiler warning" 2)) (vw_warnings V)
  ++ map (fun e => (e, option_map pmd_rule (e_rule e))) (vw_violations V)
  ++ map (fun e => (e, clang_rule $"clang static analyzer" 2)) (vw_bugs V).
Definition view_pmd (V : view) : xml :=
  Element $"pmd" [($"version", $"oclint-24.11")] (flat_map pmd_xml (pmd_findings V)).
(** Nothing but tabulators and line feeds besides printing characters. *)
Definition printable (s : str) : Prop := Forall (fun c => 32 <= code c \/ c = "009"%char \/ c = NL) s.

(** ** Dates: a moment of the Gregorian calendar, months from 1 to 12. *)
Record moment := { m_year : Z; m_month : Z; m_day : Z; m_hour : Z; m_minute : Z; m_second : Z }.
Definition valid_moment (m : moment) : Prop :=
  (0 <= m_year m <= 9999 /\ 1 <= m_month m <= 12 /\ 1 <= m_day m <= 31 /\ 0 <= m_hour m <= 23
   /\ 0 <= m_minute m <= 59 /\ 0 <= m_second m <= 60)%Z.
(** The structure gmtime() fills in for it: years from 1900, months from 0. *)
Definition broken_down (m : moment) (t : tm) : Prop :=
  tm_year t = (m_year m - 1900)%Z /\ tm_mon t = (m_month m - 1)%Z /\ tm_mday t = m_day m
  /\ tm_hour t = m_hour m /\ tm_min t = m_minute m /\ tm_sec t = m_second m.
Definition with_month (m : moment) (month : Z) : moment :=
  {| m_year := m_year m; m_month := month; m_day := m_day m; m_hour := m_hour m; m_minute := m_minute m; m_second := m_second m |}.
(** [n] written with exactly [k] digits. *)
Definition numeral_of_width (k : nat) (n : Z) (t : str) : Prop :=
  length t = k /\ Forall (fun c => isdigit c = true) t /\ value_of_digits t = n.
(** YYYY-MM-DDThh:mm:ssZ *)
Definition date_text (m : moment) (t : str) : Prop :=
  exists y mo d h mi s, numeral_of_width 4 (m_year m) y /\ numeral_of_width 2 (m_month m) mo /\ numeral_of_width 2 (m_day m) d
  /\ numeral_of_width 2 (m_hour m) h /\ numeral_of_width 2 (m_minute m) mi /\ numeral_of_width 2 (m_second m) s
  /\ t = y ++ $"-" ++ mo ++ $"-" ++ d ++ $"T" ++ h ++ $":" ++ mi ++ $":" ++ s ++ $"Z".

(** ** HTML: one table row per finding, six cells. *)
Definition cell (open text : str) : str := $"<td" ++ open ++ $">" ++ text ++ $"</td>".
Definition row (cells : list (str * str)) : str := $"<tr>" ++ concat (map (fun p => cell (fst p) (snd p)) cells) ++ $"</tr>".
Definition place_cell (e : entry) : str := show_Z (e_line e) ++ $":" ++ show_Z (e_column e).
Definition finding_cells (e : entry) : list (str * str) :=
  match e_rule e with
  | Some r => [([], e_path e); ([], place_cell e); ([], r_name r); ([], r_category r);
               ($" class='priority" ++ show_Z (r_priority r) ++ $"'", show_Z (r_priority r)); ([], e_message e)]
  | None => []
  end.
Definition fixed_cells (name class text : str) (e : entry) : list (str * str) :=
  [([], e_path e); ([], place_cell e); ([], name); ([], []); ($" class='" ++ class ++ $"'", text); ([], e_message e)].
(** All rows of the table of details, in order. *)
Definition html_cells (V : view) : list (list (str * str)) :=
  map finding_cells (vw_violations V)
  ++ map (fixed_cells $"compiler error" $"cmplr-error" $"error") (vw_errors V)
  ++ map (fixed_cells $"compiler warning" $"cmplr-warning" $"warning") (vw_warnings V)
  ++ map (fixed_cells $"clang static analyzer" $"checker-bug" $"checker bug") (vw_bugs V).
Definition html_plain (e : entry) : Prop := Forall (fun s => ~ In "<"%char s) (texts_of e).
Definition summary_row (V : view) : str :=
  row [([], show_Z (vw_files V)); ([], show_Z (vw_filesWithViolations V));
       ($" class='priority1'", show_Z (count_of 1 V)); ($" class='priority2'", show_Z (count_of 2 V)); ($" class='priority3'", show_Z (count_of 3 V));
       ($" class='cmplr-error'", show_Z (Z.of_nat (length (vw_errors V))));
       ($" class='cmplr-warning'", show_Z (Z.of_nat (length (vw_warnings V))));
       ($" class='checker-bug'", show_Z (Z.of_nat (length (vw_bugs V))))].
(** The whole page.  The cells are below these heads; a click on a head sorts by its column. *)
Definition summary_heads : list str :=
  [$"Total Files"; $"Files with Violations"; $"Priority 1"; $"Priority 2"; $"Priority 3"; $"Compiler Errors"; $"Compiler Warnings"; $"Clang Static Analyzer"].
Definition detail_heads : list str := [$"File"; $"Location"; $"Rule Name"; $"Rule Category"; $"Priority"; $"Message"].
Definition sorts_by (column : nat) : str :=
  $" onclick=" ++ ["034"%char] ++ $"sortTable(" ++ show_Z (Z.of_nat column) ++ $")" ++ ["034"%char] ++ $" class=" ++ ["034"%char] ++ $"sortable" ++ ["034"%char].
Definition head_cell (attributes text : str) : str := $"<th" ++ attributes ++ $">" ++ text ++ $"</th>".
Definition html_page (head now : str) (V : view) : str :=
  $"<!DOCTYPE html><html>" ++ head ++ $"<body><h1>OCLint Report</h1><h2>Summary</h2><table><thead><tr>"
  ++ concat (map (head_cell []) summary_heads) ++ $"</tr></thead><tbody>" ++ summary_row V ++ $"</tbody></table><h2>Details</h2><table id="
  ++ ["034"%char] ++ $"violations-table" ++ ["034"%char] ++ $"><thead><tr>"
  ++ concat (map (fun kt => head_cell (sorts_by (fst kt)) (snd kt)) (combine (seq 0 6) detail_heads))
  ++ $"</tr></thead><tbody>" ++ concat (map row (html_cells V)) ++ $"</tbody></table><hr /><p>" ++ now
  ++ $"| Generated with <a href='https://oclint.org'>OCLint v24.11</a>.</p></body></html>" ++ ["010"%char].
