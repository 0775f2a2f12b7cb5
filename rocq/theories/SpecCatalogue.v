(** * What each shipped rule is about, by its public name

    For each name: what the rule has to say about a declaration, in the vocabulary of the
    properties C48-C106. *)
From Verif Require Import Base ModelConfig ModelSource ModelAST ModelRules ModelRulesVars ModelResults ModelRuleTable ModelProgram
  SpecFilter SpecAST SpecSource SpecExec SpecRules SpecRulesBasic SpecRulesConvention SpecRulesNullCheck SpecRulesRedundant SpecRulesVars SpecRulesObjC SpecProgram.

Definition plain (n : node) : report := Report n [].
(** A rule that compares with a configurable number; it has nothing to say if it got through
    without one. *)
Definition limited (c : cfg) (key : str) (default : Z) (about : Z -> node -> list report -> Prop) (d : node) (rs : list report) : Prop :=
  (exists T c', intForKey c key default = Val (T, c') /\ about T d rs)
  \/ ((forall T c', intForKey c key default <> Val (T, c')) /\ rs = []).
Definition over_limit (c : cfg) (kd : sizekind) : node -> list report -> Prop :=
  limited c (size_key kd) (size_default kd) (fun T d rs => (kd = SParameters -> 0 <= T)%Z -> strictly_above kd T d rs).
Definition empty_body (k : construct) : node -> list report -> Prop :=
  reports_related (fun n b => body_of k n b /\ lone_semicolon_or_empty_block b).
(** Within each node of one kind, the nodes of another. *)
Definition found_within (outer inner : node -> Prop) : node -> list report -> Prop :=
  reports_per_node (fun n rs => (outer n /\ exists sel, sublist_where inner (nodes n) sel /\ rs = map plain sel)
                                \/ (~ outer n /\ rs = [])).

Definition catalogue (c : cfg) (x : tuctx) : list (str * (node -> list report -> Prop)) :=
  [ (* basic *)
   ($"bitwise operator in conditional", reports_related (fun n c => condition_of n c /\ exists m, below c m /\ bitwise_operator m));
   ($"broken null check", reports_exactly (broken_check UMember) plain);
   ($"broken nil check", reports_exactly (broken_check UMessage) plain);
   ($"broken oddness check", reports_exactly oddness_check plain);
   ($"collapsible if statements", reports_exactly (fun n => exists m, only_inner_if n m) plain);
   ($"constant conditional operator",
      reports_related (fun n c => (exists t f, n_shape n = ConditionalOperator c t f) /\ exists b, cx_evaluate x c = Some b));
   ($"constant if expression",
      reports_related (fun n c => (exists p t e, n_shape n = IfStmt p c t e) /\ exists b, cx_evaluate x c = Some b));
   ($"dead code", reports_related first_after_jump);
   ($"double negative", reports_exactly (unary_of_unary same_negation) plain);
   ($"for loop should be while loop", reports_exactly while_like plain);
   ($"goto statement", reports_exactly (fun n => exists l, n_shape n = GotoStmt l) plain);
   ($"jumbled incrementer", reports_related jumbled);
   ($"misplaced null check", reports_exactly (misplaced_check UMember) plain);
   ($"misplaced nil check", reports_exactly (misplaced_check UMessage) plain);
   ($"multiple unary operator", reports_exactly (unary_of_unary (fun o i => sign_or_negation o /\ sign_or_negation i)) plain);
   ($"return from finally block", found_within is_finally is_return);
   ($"throw exception from finally block",
      reports_per_node (fun n rs =>
        (is_finally n /\ exists sel sel', sublist_where is_objc_throw (nodes n) sel /\ sublist_where raises (nodes n) sel'
            /\ rs = map plain (sel ++ sel'))
        \/ (~ is_finally n /\ rs = [])));
   (* cocoa *)
   ($"missing hash method",
      reports_exactly equal_without_hash (fun n => Report n $"If you override isEqual you must override hash too."));
   ($"missing call to base method", reports_messages forgets_super);
   ($"calling prohibited method", reports_messages prohibited);
   ($"calling protected method", reports_per_node trespass_reports);
   ($"missing abstract method implementation", reports_per_node abstract_reports);
   (* convention *)
   ($"avoid branching statement as last in loop",
      reports_related (fun n m => (exists b l, loop_with_body n b /\ n_shape b = CompoundStmt (l ++ [m])) /\ branching m));
   ($"unnecessary default statement in covered switch statement",
      reports_exactly (fun n => exists p c b, n_shape n = SwitchStmt p c b true /\ exists d, own_label b d /\ is_default d) plain);
   ($"ill-placed default label in switch statement", fun root rs =>
      (forall n p c b x, below root n -> n_shape n = SwitchStmt p c b x -> default_bears_no_label b) ->
      reports_related default_before_case root rs);
   ($"destructor of virtual class",
      reports_messages (fun n m => exists r ms, n_shape n = CXXRecordDecl r ms /\ cls_defined (r_class r) = true
        /\ cls_polymorphic (r_class r) = true
        /\ match r_class r with CxxRecord _ _ _ _ (Some (virtual, _)) _ => virtual = false | _ => True end
        /\ m = $"class " ++ cls_name (r_class r) ++ $" should have a virtual destructor ~" ++ cls_name (r_class r) ++ $"()"));
   ($"inverted logic", reports_related (fun n c => two_way n c /\ negated c));
   ($"missing break in switch statement", reports_per_node missing_break_reports);
   ($"non case label in switch statement", found_within is_switch is_label);
   ($"ivar assignment outside accessors or init",
      reports_per_node (fun n rs =>
        (exists mi ps b sel, n_shape n = ObjCMethodDecl mi ps b
           /\ sublist_where (fun v => ~ accessor_or_init (om_selector mi) (snd v)) (ivars_assigned n) sel
           /\ rs = map (fun v => plain (fst v)) sel)
        \/ ((forall mi ps b, n_shape n <> ObjCMethodDecl mi ps b) /\ rs = [])));
   ($"parameter reassignment",
      reports_per_node (fun n rs =>
        (exists ps sel, callable n ps /\ sublist_where (assigns_parameter_name ps) (nodes n) sel /\ rs = map plain sel)
        \/ ((forall ps, ~ callable n ps) /\ rs = [])));
   ($"prefer early exits and continue",
      limited c $"MAXIMUM_IF_LENGTH" 15 (fun T root rs =>
        exists sel, sublist_where (fun n => exists m, could_exit_early (cx_lines x) T n m) (nodes root) sel
          /\ Forall2 (fun n r => could_exit_early (cx_lines x) T n (rp_node r)
                /\ rp_message r = $"Use early exit/continue to simplify code and reduce indentation") sel rs));
   ($"missing default in switch statements",
      reports_exactly (fun n => exists p c b, n_shape n = SwitchStmt p c b false /\ ~ exists d, own_label b d /\ is_default d) plain);
   ($"too few branches in switch statement",
      limited c $"MINIMUM_CASES_IN_SWITCH" 3 (fun T =>
        reports_exactly (fun n => is_switch n /\ exists cases, sublist_where is_case (nodes n) cases /\ (Z.of_nat (length cases) < T)%Z) plain));
   (* cuda, design *)
   ($"branch divergence", reports_exactly (fun n => exists p c t e, n_shape n = IfStmt p c t (Some e)) plain);
   ($"avoid default arguments on virtual methods", reports_exactly virtual_with_default plain);
   ($"avoid private static members", reports_exactly private_static plain);
   (* empty *)
   ($"empty catch statement", empty_body KCatch); ($"empty do/while statement", empty_body KDo);
   ($"empty else block", empty_body KElse); ($"empty finally statement", empty_body KFinally);
   ($"empty for statement", empty_body KFor); ($"empty if statement", empty_body KIf);
   ($"empty switch statement", empty_body KSwitch); ($"empty try statement", empty_body KTry);
   ($"empty while statement", empty_body KWhile);
   (* migration *)
   ($"use boxed expression", reports_exactly boxable plain);
   ($"use container literal", reports_exactly container_literal plain);
   ($"use number literal", reports_exactly number_literal plain);
   ($"use object subscripting", reports_exactly subscriptable plain);
   (* naming *)
   ($"long variable name",
      limited c $"LONG_VARIABLE_NAME" 20 (fun T root rs => (-8 <= T)%Z ->
        (forall n name, below root n -> variable_named n name -> (size name <= INT_MAX - 10)%Z) ->
        reports_messages (long_name T) root rs));
   (* redundant *)
   ($"redundant conditional operator", reports_exactly redundant_choice plain);
   ($"redundant if statement", reports_exactly redundant_if plain);
   ($"redundant local variable", reports_related declared_then_returned);
   ($"redundant nil check", reports_exactly redundant_nil_check plain);
   ($"unnecessary null check for dealloc", reports_exactly (guarded_delete (cx_sameExpr x)) plain);
   ($"useless parentheses", reports_related useless_parentheses);
   (* size *)
   ($"high cyclomatic complexity", over_limit c SCyclomatic); ($"long class", over_limit c SClassLines);
   ($"long method", over_limit c SMethodLines); ($"high npath complexity", over_limit c SNPath);
   ($"high ncss method", over_limit c SNcss); ($"deep nested block", over_limit c SDepth);
   ($"too many fields", over_limit c SFields); ($"too many methods", over_limit c SMethods);
   ($"too many parameters", over_limit c SParameters);
   (* unused *)
   ($"unused local variable", fun root rs => forall d u,
      configured c $"RAII_DEFAULT_CLASSES" $"std::lock_guard, std::unique_lock" d -> configured c $"RAII_CUSTOM_CLASSES" [] u ->
      reports_messages (reported_unused d u) root rs);
   ($"unused method parameter", reports_messages reported_parameter)].

(** The rules that look at more than one node at a time, or at no node. *)
Definition special_rules : list str :=
  [$"base class destructor should be virtual or protected"; $"unnecessary else statement"; $"short variable name"; $"long line"].

(** Registered rule [k] bears the name. *)
Definition named (k : nat) (s : shipped) (name : str) : Prop :=
  nth_error shipped_rules k = Some s /\ sh_name s = name.
(** What the rule says on the declarations it inspects, except what is hidden. *)
Definition records (x : tuctx) (k : nat) (s : shipped) (about : node -> list report -> Prop) (vs : list violation) : Prop :=
  exists decls rss kept, examined x s decls /\ Forall2 about decls rss
    /\ sublist_where (recorded (cx_env x) (sh_attributeName s)) (concat rss) kept
    /\ vs = map (violation_of (cx_env x) k) kept.
(** All it has to say is hidden. *)
Definition nothing_open (x : tuctx) (s : shipped) (about : node -> list report -> Prop) : Prop :=
  exists decls rss, examined x s decls /\ Forall2 about decls rss
    /\ forall r, In r (concat rss) -> ~ recorded (cx_env x) (sh_attributeName s) r.
