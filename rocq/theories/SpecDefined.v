(** * Specification vocabulary: when the rules stay within what C++ defines *)
From Verif Require Import Base ModelConfig ModelSource ModelAST ModelRules ModelRuleTable ModelProgram
  ModelReporters ModelMain SpecConfig SpecAST SpecExec SpecRules SpecRulesVars SpecRulesObjC SpecSettings SpecProgram.

(** The settings of a rule that are numbers: those whose default is one. *)
Definition numeric (s : shipped) (key default : str) : Prop :=
  In (key, default) (sh_reads s) /\ exists d, reads_as default d.
(** The number such a setting stands for; a text without a number counts as 0. *)
Definition stands_for (c : cfg) (key default : str) (T : Z) : Prop :=
  exists text, in_force c key default text /\ (reads_as text T \/ ((forall z, ~ reads_as text z) /\ T = 0%Z)).
(** All numbers the rule is configured with fit in an int. *)
Definition settings_fit (c : cfg) (s : shipped) : Prop :=
  forall key default T, numeric s key default -> stands_for c key default T -> in_int T.

(** The statements whose paths enter the count of [n]. *)
Definition entering (n : node) : list node :=
  match n_shape n with
  | CompoundStmt l => l
  | IfStmt _ _ a e => a :: opt e
  | WhileStmt _ _ b | DoStmt b _ | ObjCForCollectionStmt _ _ b => [b]
  | ForStmt init _ _ _ b => opt init ++ [b]
  | SwitchStmt _ _ b _ => match n_shape b with CompoundStmt l => l | _ => [b] end
  | CaseStmt _ s | DefaultStmt s => [s]
  | _ => []
  end.
(** The first statements of a block; or a case label in the braces of a switch and the
    statements after it, up to some point before the next label. *)
Definition segment (n : node) (l : list node) : Prop :=
  (exists after, n_shape n = CompoundStmt (l ++ after))
  \/ exists pre c b cov before label rest after,
       n_shape n = SwitchStmt pre c b cov /\ n_shape b = CompoundStmt (before ++ l ++ after)
       /\ l = label :: rest /\ case_label label /\ forall x, In x rest -> ~ case_label x.
(** The number of paths of [n] itself, or of one of the statements that enter it, or of one of
    their segments, is larger than an int can be. *)
Inductive uncountable : node -> Prop :=
| un_self : forall n v, paths n v -> (INT_MAX < v)%Z -> uncountable n
| un_segment : forall n l vs, segment n l -> Forall2 paths l vs -> (INT_MAX < product vs)%Z -> uncountable n
| un_inside : forall n m, In m (entering n) -> uncountable m -> uncountable n.
Definition countable (body : node) : Prop := ~ uncountable body.
(** [body] is the braced body of a function or method in one of the trees. *)
Definition body_in (decls : list node) (body : node) : Prop :=
  exists d n, In d decls /\ below d n /\ has_body n body /\ compound body.
Definition name_in (decls : list node) (name : str) : Prop :=
  exists d n, In d decls /\ below d n /\ variable_named n name.
Definition classless_in (decls : list node) : Prop :=
  exists d n, In d decls /\ below d n /\ classless_trespass n.

(** A name can be put into the message of the rule on long names: it is not too long, or it
    is shown in full, or it has three characters to end with. *)
Definition displayable (T : Z) (name : str) : Prop :=
  (size name <= T \/ (T + 10 <= INT_MAX /\ (size name <= T + 10 \/ 3 <= size name)))%Z.

(** The rule of this name compares its limit with something about [n]. *)
Definition compares (name : str) (n : node) : Prop :=
  (In name [$"high cyclomatic complexity"; $"high ncss method"] /\ function_or_method n)
  \/ (name = $"high npath complexity" /\ exists b, has_body n b /\ compound b)
  \/ (name = $"deep nested block" /\ compound n)
  \/ (name = $"long method" /\ (exists b, has_body n b)
      /\ forall fi ps b m, n_shape n = FunctionDecl fi ps b -> f_method fi = Some m -> cm_inRecord m = false)
  \/ (name = $"too few branches in switch statement" /\ is_switch n)
  \/ (In name [$"long variable name"; $"short variable name"] /\ a_variable n).
(** The rules that read their limit when a unit is begun. *)
Definition reads_early : list str :=
  [$"long class"; $"too many fields"; $"too many methods"; $"too many parameters"; $"prefer early exits and continue"].
(** The rule reads its limit: at the beginning of a unit in one of its languages, or at the
    first line, or at something there is to compare with. *)
Definition looks (s : shipped) (x : tuctx) (decls : list node) : Prop :=
  (In (sh_name s) reads_early /\ prepared (cx_lang x) (sh_supportedLanguages s) (sh_supportedCUDA s))
  \/ (sh_name s = $"long line" /\ u_content (main_unit x) <> [])
  \/ exists d n, In d decls /\ below d n /\ compares (sh_name s) n.
(** Nothing in these declarations can trip the rule, with this configuration. *)
Definition unproblematic (c : cfg) (s : shipped) (x : tuctx) (decls : list node) : Prop :=
  (looks s x decls -> settings_fit c s)
  /\ (sh_name s = $"high npath complexity" -> forall body, body_in decls body -> countable body)
  /\ (sh_name s = $"long variable name" -> forall T name, stands_for c $"LONG_VARIABLE_NAME" $"20" T ->
        name_in decls name -> displayable T name)
  /\ (sh_name s = $"calling protected method" -> ~ classless_in decls).
(** Nothing in these units can trip any of the rules. *)
Definition all_unproblematic (c : cfg) (rules : list nat) (xs : list tuctx) : Prop :=
  forall x k, In x xs -> In k rules ->
    exists s decls, nth_error shipped_rules k = Some s /\ examined x s decls /\ unproblematic c s x decls.
(** Every setting fits, every braced function body of the unit has a countable number of
    paths, every name can be displayed, and no protected method of a protocol is called. *)
Definition modest (c : cfg) (x : tuctx) : Prop :=
  let decls := map snd (cx_tops x) in
  well_formed x /\ (forall body, body_in decls body -> countable body)
  /\ (forall T name, stands_for c $"LONG_VARIABLE_NAME" $"20" T -> name_in decls name -> displayable T name)
  /\ ~ classless_in decls.
(** The reporters it comes with, on a machine whose clock can be read. *)
Definition shipped_reporter (r : reporter) : Prop :=
  r = TextReporter shipped_env \/ r = XcodeReporter shipped_env \/ r = PMDReporter shipped_env
  \/ (exists now, r = JSONReporter shipped_env now) \/ (exists head now, r = HTMLReporter head now shipped_env)
  \/ exists t, in_intb (tm_year t + 1900) = true /\ r = XMLReporter shipped_env (Some t).
