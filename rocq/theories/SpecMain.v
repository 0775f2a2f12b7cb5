(** * Specification vocabulary for loading and for the process as a whole *)
From Verif Require Import Base ModelResults ModelConfig ModelFilter ModelOptions ModelMain
  SpecResults SpecFilter SpecOptions.

(** The library files a list of directories asks for: the visible entries of the readable
    directories, in order. *)
Definition visible (n : str) : Prop := forall r, n <> "."%char :: r.
Inductive asked (w : world) : list str -> list str -> Prop :=
| asked_nil : asked w [] []
| asked_unreadable : forall d ds ps,
    w_list w d = None -> asked w ds ps -> asked w (d :: ds) ps
| asked_readable : forall d ds es vs ps,
    w_list w d = Some es -> sublist_where visible es vs -> asked w ds ps ->
    asked w (d :: ds) (map (fun n => d ++ "/"%char :: n) vs ++ ps).

(** The rules registered by opening the libraries [ps]: each library once, in order. *)
Definition registered_by (w : world) (ps : list str) (rules : list nat) : Prop :=
  exists once, one_copy_each ps once
    /\ rules = flat_map (fun p => match w_rulelib w p with Some rs => rs | None => [] end) once.

(** The reporter for [type] among the visible entries [ps] of the reporter directory. *)
Inductive picks (w : world) (type : str) : list str -> reporter -> Prop :=
| picks_here : forall p ps r,
    w_replib w p = Some (Some r) -> rp_name r = type -> picks w type (p :: ps) r
| picks_later : forall p ps r' r,
    w_replib w p = Some (Some r') -> rp_name r' <> type -> picks w type ps r ->
    picks w type (p :: ps) r.

(** The list a result object shows for a query, given what has been collected. *)
Definition collected_list (q : query) (c : collector) : list violation :=
  match q with
  | QViolations => concat (c_collection c)
  | QErrors => c_errors c
  | QWarnings => c_warnings c
  | QBugs => c_bugs c
  end.
Definition shows (dup : bool) (c : collector) (q : query) (l : list violation) : Prop :=
  if dup then l = collected_list q c else one_copy_each (collected_list q c) l.

(** A reporter's session ending with [o], all of its questions being answered from [ans]. *)
Inductive session (ans : query -> list violation -> Prop) : reporting -> outcome str -> Prop :=
| session_done : forall o, session ans (RDone o) o
| session_ask : forall q k l o, ans q l -> session ans (k l) o -> session ans (RAsk q k) o.

(** Number of violations of priority [p] in a list. *)
Definition count_priority (w : world) (p : Z) (l : list violation) : Z :=
  Z.of_nat (length (filter (has_priorityb (w_rules w) p) l)).

(** ** Stage facts of a run *)
Section Stages.
  Variable w : world.

  Definition options_are (s : ostate) : Prop :=
    exists cl, w_cmdline w = Some cl /\ process (w_read w) (w_yaml w) (w_env w) cl = Val s.

  (** Every library of the rule paths opens and registers [rules], at least one. *)
  Definition rules_loaded (s : ostate) (rules : list nat) : Prop :=
    exists ps, asked w (rulesPath (w_env w) s) ps
      /\ (forall p, In p ps -> w_rulelib w p <> None)
      /\ registered_by w ps rules /\ rules <> [].

  (** The requested reporter is found. *)
  Definition reporter_found (s : ostate) (r : reporter) : Prop :=
    exists es vs, w_list w (en_bin (w_env w) ++ $"/../lib/oclint/reporters") = Some es
      /\ sublist_where visible es vs
      /\ picks w (reportType s) (map (fun n => en_bin (w_env w) ++ $"/../lib/oclint/reporters/" ++ n) vs) r.

  (** Analysis with the selected rules completes and collects [c]. *)
  Definition analysed (s : ostate) (rules : list nat) (c : collector) : Prop :=
    exists sel, filteredRules (w_rules w) (os_filter s) (registry rules) = Val sel
      /\ w_driver w sel = (c, Val tt).

  (** The report text is produced and its destination could be opened. *)
  Definition reported (s : ostate) (r : reporter) (c : collector) (text : str) : Prop :=
    session (shows (allowDuplicatedViolations s) c) (rp_report r c) (Val text)
    /\ (o_value (argOutput s) = $"-"
        \/ exists path, outputPath (w_env w) s = Val path /\ w_canOpen w path = true).

  Definition no_compile_error (c : collector) : Prop := c_errors c = [].

  Definition within_limits (s : ostate) (c : collector) : Prop :=
    forall l, shows (allowDuplicatedViolations s) c QViolations l ->
      (count_priority w 1 l <= maxP1 s /\ count_priority w 2 l <= maxP2 s
       /\ count_priority w 3 l <= maxP3 s)%Z.

  (** The decision table. *)
  Inductive exits : Z -> Prop :=
  | x_options : w_cmdline w = None -> exits 7
  | x_rules : forall s, options_are s ->
      (forall rules, ~ rules_loaded s rules) -> exits 1
  | x_reporter : forall s rules, options_are s -> rules_loaded s rules ->
      (forall r, ~ reporter_found s r) -> exits 2
  | x_processing : forall s rules r, options_are s -> rules_loaded s rules -> reporter_found s r ->
      (forall c, ~ analysed s rules c) -> exits 3
  | x_reporting : forall s rules r c, options_are s -> rules_loaded s rules ->
      reporter_found s r -> analysed s rules c ->
      (forall text, ~ reported s r c text) -> exits 4
  | x_errors : forall s rules r c text, options_are s -> rules_loaded s rules ->
      reporter_found s r -> analysed s rules c -> reported s r c text ->
      ~ no_compile_error c -> exits 6
  | x_limits : forall s rules r c text, options_are s -> rules_loaded s rules ->
      reporter_found s r -> analysed s rules c -> reported s r c text ->
      no_compile_error c -> ~ within_limits s c -> exits 5
  | x_success : forall s rules r c text, options_are s -> rules_loaded s rules ->
      reporter_found s r -> analysed s rules c -> reported s r c text ->
      no_compile_error c -> within_limits s c -> exits 0.
End Stages.

(** The events around the report. *)
Definition listing (w : world) (sel : list nat) : list event :=
  if w_listRules w
  then [EOut ($"Enabled rules:" ++ [NL]
              ++ concat (map (fun a => $"- " ++ ri_identifier (w_rules w a) ++ [NL]) sel) ++ [NL])]
  else [].

Definition report_event (w : world) (s : ostate) (text : str) (ev : event) : Prop :=
  (o_value (argOutput s) = $"-" /\ ev = EOut text)
  \/ (o_value (argOutput s) <> $"-" /\ exists path, outputPath (w_env w) s = Val path
      /\ ev = EFile path (firstn (w_accepts w path) text)).

(** An error message; and the statement of the three counts, each with its limit. *)
Definition error_event (m : str) : event := EErr ([NL] ++ $"oclint: error: " ++ m ++ [NL]).
Definition counts_event (p1 p2 p3 : Z * Z) : event :=
  EErr ($"P1=" ++ show_Z (fst p1) ++ $"[" ++ show_Z (snd p1) ++ $"] P2=" ++ show_Z (fst p2)
        ++ $"[" ++ show_Z (snd p2) ++ $"] P3=" ++ show_Z (fst p3) ++ $"[" ++ show_Z (snd p3) ++ $"] " ++ [NL]).

(** What is said after the report: with exit code 5, that the limits are exceeded, with the
    counts of the violations shown and the limits; otherwise nothing. *)
Definition said_last (w : world) (s : ostate) (c : collector) (n : Z) (post : list event) : Prop :=
  (n <> 5%Z /\ post = [])
  \/ (n = 5%Z /\ exists l, shows (allowDuplicatedViolations s) c QViolations l
      /\ post = [error_event $"violations exceed threshold";
                 counts_event (count_priority w 1 l, maxP1 s) (count_priority w 2 l, maxP2 s)
                              (count_priority w 3 l, maxP3 s)]).

(** The events of a run with a given exit code. *)
Inductive trace (w : world) : Z -> list event -> Prop :=
| t_options : trace w 7 []
| t_early : forall n m, (n = 1 \/ n = 2)%Z -> trace w n [error_event m]
| t_analysis : forall sel m,
    trace w 3 (listing w sel ++ [EAnalyze sel; error_event m])
| t_reporting : forall sel pre m, pre = [] \/ (exists p, pre = [EFile p []]) ->
    trace w 4 (listing w sel ++ EAnalyze sel :: pre ++ [error_event m])
| t_done : forall n sel s rules r c text ev post, (n = 0 \/ n = 5 \/ n = 6)%Z ->
    options_are w s -> rules_loaded w s rules -> reporter_found w s r -> analysed w s rules c ->
    filteredRules (w_rules w) (os_filter s) (registry rules) = Val sel ->
    reported w s r c text -> report_event w s text ev -> said_last w s c n post ->
    trace w n (listing w sel ++ EAnalyze sel :: ev :: post).

(** Nothing undefined can happen: -rc arguments fit, reporter libraries define "create", the
    driver and the reporters stay defined, and every violation carries a rule. *)
Definition well_behaved (w : world) : Prop :=
  (forall cl, w_cmdline w = Some cl ->
     Forall (fun a => (Z.of_nat (length a) <= INT_MAX)%Z) (cl_rc cl))
  /\ (forall p, w_replib w p <> Some None)
  /\ (forall sel, snd (w_driver w sel) <> UB)
  /\ (forall sel v, In v (concat (c_collection (fst (w_driver w sel)))) -> v_rule v <> None)
  /\ (forall p r c dup, w_replib w p = Some (Some r) -> ~ session (shows dup c) (rp_report r c) UB).


(** Two command lines that differ only in the three limits. *)
Definition with_limits (cl : cmdline) (a b c : Z) : cmdline :=
  {| cl_output := cl_output cl; cl_reportType := cl_reportType cl; cl_R := cl_R cl;
     cl_rc := cl_rc cl; cl_rule := cl_rule cl; cl_disableRule := cl_disableRule cl;
     cl_maxP1 := Some a; cl_maxP2 := Some b; cl_maxP3 := Some c;
     cl_globalAnalysis := cl_globalAnalysis cl; cl_clangChecker := cl_clangChecker cl;
     cl_duplications := cl_duplications cl |}.
Definition with_cmdline (w : world) (cl : cmdline) : world :=
  {| w_list := w_list w; w_rulelib := w_rulelib w; w_replib := w_replib w; w_read := w_read w;
     w_yaml := w_yaml w; w_env := w_env w; w_cmdline := Some cl; w_listRules := w_listRules w;
     w_canOpen := w_canOpen w; w_accepts := w_accepts w; w_rules := w_rules w;
     w_driver := w_driver w; w_hash := w_hash w |}.
