(** * The whole program: the shipped rules plugged into the analyzer, the driver and main() *)
From Verif Require Import Base ModelResults ModelConfig ModelFilter ModelOptions ModelMain ModelDriver
  ModelSource ModelAST ModelRules ModelRulesBasic ModelRulesConvention ModelRulesNullCheck
  ModelRulesRedundant ModelRulesVars ModelRulesObjC ModelDocgen ModelRuleTable.

(** What the front end leaves of a unit, as far as the rules look at it: annotations, parents
    and locations; language; the top-level declarations with their trees; constant
    evaluation of conditions, line counts, and structural equality of expressions. *)
Record tuctx := {
  cx_env : env;
  cx_lang : langopts;
  cx_tops : list (top * node);
  cx_evaluate : node -> option bool;
  cx_lines : node -> Z;
  cx_sameExpr : node -> node -> bool
}.

(** How a rule works. *)
Inductive behaviour :=
| BVisit (visit : tuctx -> node -> list report)                        (* per node, no state *)
| BChecked (rule : cfg -> tuctx -> node -> outcome (list report))      (* per declaration *)
| BSetUp (rule : cfg -> tuctx -> list node -> outcome (list report))   (* prepared in setUp *)
| BWhole (rule : list node -> list report)                             (* state within the unit *)
| BBases (visit : node -> list (cxxrecord * str))                      (* reports on base classes *)
| BStack                                                               (* state across units *)
| BLines.                                                              (* source lines *)

(** oclint-rules/rules: the registered rule objects, in the order of [shipped_rules]. *)
Definition shipped_behaviours : list (shipped * behaviour) :=
  [(sh_BitwiseOperatorInConditional, BVisit (fun _ => BitwiseOperatorInConditional_visit));
   (sh_BrokenNullCheck, BVisit (fun _ => BrokenNullCheck_visit));
   (sh_BrokenNilCheck, BVisit (fun _ => BrokenNilCheck_visit));
   (sh_BrokenOddnessCheck, BVisit (fun _ => BrokenOddnessCheck_visit));
   (sh_CollapsibleIfStatements, BVisit (fun _ => CollapsibleIf_visit));
   (sh_ConstantConditionalOperator, BVisit (fun x => ConstantConditional_visit (cx_evaluate x)));
   (sh_ConstantIfExpression, BVisit (fun x => ConstantIf_visit (cx_evaluate x)));
   (sh_DeadCode, BVisit (fun _ => DeadCode_visit));
   (sh_DoubleNegative, BVisit (fun _ => DoubleNegative_visit));
   (sh_ForLoopShouldBeWhileLoop, BVisit (fun _ => ForLoopShouldBeWhile_visit));
   (sh_GotoStatement, BVisit (fun _ => Goto_visit));
   (sh_JumbledIncrementer, BVisit (fun _ => JumbledIncrementer_visit));
   (sh_MisplacedNullCheck, BVisit (fun _ => MisplacedNullCheck_visit));
   (sh_MisplacedNilCheck, BVisit (fun _ => MisplacedNilCheck_visit));
   (sh_MultipleUnaryOperator, BVisit (fun _ => MultipleUnary_visit));
   (sh_ReturnFromFinallyBlock, BVisit (fun _ => ReturnFromFinally_visit));
   (sh_ThrowExceptionFromFinallyBlock, BVisit (fun _ => ThrowFromFinally_visit));
   (sh_ObjCVerifyIsEqualHash, BVisit (fun _ => IsEqualHash_visit));
   (sh_ObjCVerifyMustCallSuper, BVisit (fun _ => MustCallSuper_visit));
   (sh_ObjCVerifyProhibitedCall, BVisit (fun _ => ProhibitedCall_visit));
   (sh_ObjCVerifyProtectedMethod, BChecked (fun _ _ => reports_outcome ProtectedMethod_visit));
   (sh_ObjCVerifySubclassMustImplement, BVisit (fun _ => SubclassMustImplement_visit));
   (sh_AvoidBranchingStatementAsLastInLoop, BVisit (fun _ => AvoidBranching_visit));
   (sh_BaseClassDestructorShouldBeVirtualOrProtected, BBases BaseClassDestructor_visit);
   (sh_CoveredSwitchStatementsDontNeedDefault, BVisit (fun _ => UnnecessaryDefault_visit));
   (sh_DefaultLabelNotLastInSwitchStatement, BVisit (fun _ => MisplacedDefault_visit));
   (sh_DestructorOfVirtualClass, BVisit (fun _ => DestructorOfVirtualClass_visit));
   (sh_InvertedLogic, BVisit (fun _ => InvertedLogic_visit));
   (sh_MissingBreakInSwitchStatement, BVisit (fun _ => MissingBreak_visit));
   (sh_NonCaseLabelInSwitchStatement, BVisit (fun _ => NonCaseLabel_visit));
   (sh_ObjCAssignIvarOutsideAccessors, BVisit (fun _ => AssignIvar_visit));
   (sh_ParameterReassignment, BVisit (fun _ => ParameterReassignment_visit));
   (sh_PreferEarlyExit, BSetUp (fun c x => PreferEarlyExitRule (cx_lines x) c));
   (sh_SwitchStatementsShouldHaveDefault, BVisit (fun _ => MissingDefault_visit));
   (sh_TooFewBranchesInSwitchStatement, BChecked (fun c _ => TooFewBranchesRule c));
   (sh_CudaBranchDivergence, BVisit (fun _ => BranchDivergence_visit));
   (sh_AvoidDefaultArgumentsOnVirtualMethods, BVisit (fun _ => DefaultArguments_visit));
   (sh_AvoidPrivateStaticMembers, BVisit (fun _ => PrivateStatic_visit));
   (sh_EmptyCatchStatement, BVisit (fun _ => EmptyCatch_visit));
   (sh_EmptyDoWhileStatement, BVisit (fun _ => EmptyDoWhile_visit));
   (sh_EmptyElseBlock, BVisit (fun _ => EmptyElse_visit));
   (sh_EmptyFinallyStatement, BVisit (fun _ => EmptyFinally_visit));
   (sh_EmptyForStatement, BVisit (fun _ => EmptyFor_visit));
   (sh_EmptyIfStatement, BVisit (fun _ => EmptyIf_visit));
   (sh_EmptySwitchStatement, BVisit (fun _ => EmptySwitch_visit));
   (sh_EmptyTryStatement, BVisit (fun _ => EmptyTry_visit));
   (sh_EmptyWhileStatement, BVisit (fun _ => EmptyWhile_visit));
   (sh_ObjCBoxedExpressions, BVisit (fun _ => BoxedExpressions_visit));
   (sh_ObjCContainerLiterals, BVisit (fun _ => ContainerLiterals_visit));
   (sh_ObjCNSNumberLiterals, BVisit (fun _ => NSNumberLiterals_visit));
   (sh_ObjCObjectSubscripting, BVisit (fun _ => ObjectSubscripting_visit));
   (sh_LongVariableName, BChecked (fun c _ => LongVariableNameRule c));
   (sh_ShortVariableName, BStack);
   (sh_RedundantConditionalOperator, BVisit (fun _ => RedundantConditional_visit));
   (sh_RedundantIfStatement, BVisit (fun _ => RedundantIf_visit));
   (sh_RedundantLocalVariable, BVisit (fun _ => RedundantLocal_visit));
   (sh_RedundantNilCheck, BVisit (fun _ => RedundantNilCheck_visit));
   (sh_UnnecessaryElseStatement, BWhole UnnecessaryElseRule);
   (sh_UnnecessaryNullCheckForCXXDealloc, BVisit (fun x => UnnecessaryNullCheck_visit (cx_sameExpr x)));
   (sh_UselessParentheses, BVisit (fun _ => UselessParentheses_visit));
   (sh_CyclomaticComplexity, BChecked (fun c _ => CyclomaticComplexityRule c));
   (sh_LongClass, BSetUp (fun c _ => LongClassRule c));
   (sh_LongLine, BLines);
   (sh_LongMethod, BChecked (fun c _ => LongMethodRule c));
   (sh_NPathComplexity, BChecked (fun c _ => NPathComplexityRule c));
   (sh_NcssMethodCount, BChecked (fun c _ => NcssMethodCountRule c));
   (sh_NestedBlockDepth, BChecked (fun c _ => NestedBlockDepthRule c));
   (sh_TooManyFields, BSetUp (fun c _ => TooManyFieldsRule c));
   (sh_TooManyMethods, BSetUp (fun c _ => TooManyMethodsRule c));
   (sh_TooManyParameters, BSetUp (fun c _ => TooManyParametersRule c));
   (sh_UnusedLocalVariable, BChecked (fun c _ => UnusedLocalVariableRule c));
   (sh_UnusedMethodParameter, BVisit (fun _ => UnusedMethodParameter_visit))].

(** AbstractASTVisitorRule.h:14-81: the trees a rule traverses, in order. *)
Definition roots_of (x : tuctx) (s : shipped) : list node :=
  flat_map (fun a => match a with
                     | Traverse id => match find (fun t => t_id (fst t) =? id) (cx_tops x) with
                                      | Some (_, root) => [root]
                                      | None => []
                                      end
                     | SetUp | TearDown => []
                     end)
    (applyVisitor (cx_lang x) (sh_supportedLanguages s) (sh_supportedCUDA s) (map fst (cx_tops x))).

(** Whether it gets as far as setUp. *)
Definition set_up (x : tuctx) (s : shipped) : bool :=
  existsb (fun a => match a with SetUp => true | _ => false end)
    (applyVisitor (cx_lang x) (sh_supportedLanguages s) (sh_supportedCUDA s) (map fst (cx_tops x))).

Fixpoint each_root (rule : node -> outcome (list report)) (roots : list node) : outcome (list report) :=
  match roots with
  | [] => Val []
  | r :: rest => obind (rule r) (fun a => obind (each_root rule rest) (fun b => Val (a ++ b)))
  end.
(** Reports on base classes name declarations that need not be in the tree. *)
Definition base_report (p : cxxrecord * str) : report :=
  match p with (CxxRecord id _ _ _ _ _, m) => Report (Node id [] (OtherDecl [])) m end.
(** The calls of addViolation, in order, and the stack afterwards; [ready] if setUp is called.
    [BLines] is dealt with below. *)
Definition calls (b : behaviour) (c : cfg) (x : tuctx) (stack : list nat) (ready : bool) (roots : list node)
  : outcome (list nat * list report) :=
  match b with
  | BVisit visit => Val (stack, flat_map (reports (visit x)) roots)
  | BChecked rule => obind (each_root (rule c x) roots) (fun rs => Val (stack, rs))
  | BSetUp rule => if ready then obind (rule c x roots) (fun rs => Val (stack, rs)) else Val (stack, [])
  | BWhole rule => Val (stack, rule roots)
  | BBases visit => Val (stack, map base_report (flat_map (collect visit) roots))
  | BStack => ShortVariableName_run c stack roots
  | BLines => Val (stack, [])
  end.

(** The state that outlives a unit: the suppression caches (SuppressHelper.cpp:115-116,
    169-170) and the stack of ShortVariableNameRule. *)
Record rstate := { r_cache : scache; r_stack : list nat }.
Definition r_initial : rstate := {| r_cache := sc_fresh; r_stack := [] |}.

(** RuleBase.cpp:5-9 for rule object [k]: a rule applied to a unit, recording as it goes
    (recording does not influence the traversal). *)
Definition takeoff (c : cfg) (k : nat) (x : tuctx) (st : rstate) : outcome (list violation * rstate) :=
  match nth_error shipped_behaviours k with
  | None => UB
  | Some (s, BLines) =>
      obind (LongLine_apply c (e_unit (cx_env x)) k [] (r_cache st)) (fun r =>
        Val (fst r, {| r_cache := snd r; r_stack := r_stack st |}))
  | Some (s, b) =>
      obind (calls b c x (r_stack st) (set_up x s) (roots_of x s)) (fun r =>
        let '(vs, sc) := fold_left (add_report (cx_env x) k (sh_attributeName s)) (snd r) ([], r_cache st) in
        Val (vs, {| r_cache := sc; r_stack := fst r |}))
  end.

(** main.cpp:169-200: the driver with the rule-set analyzer, in a fresh process.
    The configuration is complete before the rules are loaded and run (main.cpp:178-200), and
    no rule changes it.  The tools are those of the run: what its front-end action does
    (CompilerInstance.cpp:56-61). *)
Record inputs := { in_tools : toolchain tuctx; in_sources : list str; in_cwd : str }.
Definition driver_of (i : inputs) (s : ostate) (rules : list nat) : collector * outcome unit :=
  let '(c, o) := run (in_tools i) (takeoff (os_cfg s)) rules (enableGlobalAnalysis s) (enableClangChecker s)
                   (in_sources i) c_empty (in_cwd i) r_initial in
  (c, obind o (fun _ => Val tt)).
(** The process: a world whose driver is the above and whose rule objects are the shipped ones. *)
Definition program (w : world) (i : inputs) : world :=
  {| w_list := w_list w; w_rulelib := w_rulelib w; w_replib := w_replib w; w_read := w_read w;
     w_yaml := w_yaml w; w_env := w_env w; w_cmdline := w_cmdline w; w_listRules := w_listRules w;
     w_canOpen := w_canOpen w; w_accepts := w_accepts w; w_rules := shipped_env;
     w_driver := fun rules =>
       match w_cmdline w with
       | Some cl => match process (w_read w) (w_yaml w) (w_env w) cl with
                    | Val s => driver_of i s rules
                    | Exc m => (c_empty, Exc m)
                    | UB => (c_empty, UB)
                    end
       | None => (c_empty, UB)
       end;
     w_hash := w_hash w |}.
