(** * Model of oclint-rules/rules/convention and rules/cuda *)
From Verif Require Import Base ModelConfig ModelAST ModelRules ModelRulesBasic.

(** ** Switch statements *)

(** MissingBreakInSwitchStatementRule.cpp:11-47: the statements at which FindingBreak stops *)
Definition leavesCase (n : node) : bool :=
  match n_shape n with
  | BreakStmt | ReturnStmt _ | ContinueStmt | CXXThrowExpr _ | ObjCAtThrowStmt _ => true
  | _ => false
  end.
Definition findBreak (n : node) : bool := found leavesCase n.
(** :96-99 *)
Definition isSwitchCase (n : node) : bool :=
  match n_shape n with CaseStmt _ _ | DefaultStmt _ => true | _ => false end.
(** :101-114 *)
Definition isBreakingPoint (n : node) : bool :=
  let isSubClean :=
    match n_shape n with
    | ExprWithCleanups _ | CompoundStmt _ => findBreak n
    | _ => false
    end in
  leavesCase n || isSubClean.
(** :124-149.  The answer tells how often the switch was reported. *)
Fixpoint missingBreak_loop (body : list node) (breakFound : bool) : nat :=
  match body with
  | [] => if breakFound then 0 else 1
  | bodyStmt :: rest =>
      if isBreakingPoint bodyStmt then missingBreak_loop rest true
      else if isSwitchCase bodyStmt then
        if negb breakFound then 2
        else missingBreak_loop rest (findBreak bodyStmt)
      else missingBreak_loop rest breakFound
  end.
(** :116-152 *)
Definition MissingBreak_visit (n : node) : list report :=
  match n_shape n with
  | SwitchStmt _ _ body _ =>
      match n_shape body with
      | CompoundStmt l => repeat (plainReport n) (missingBreak_loop l true)
      | _ => []
      end
  | _ => []
  end.

(** Clang's Sema enters the labels of a switch into a linked list, newest first: a case label
    when it is read, a default label after its sub-statement was read.  Labels inside a nested
    switch enter the nested list. *)
Fixpoint enteredLabels (n : node) : list node :=
  match n with
  | Node i ty s =>
      match s with
      | CaseStmt v sub => Node i ty (CaseStmt v sub) :: enteredLabels v ++ enteredLabels sub
      | DefaultStmt sub => enteredLabels sub ++ [Node i ty (DefaultStmt sub)]
      | SwitchStmt pre c _ _ => concat (map enteredLabels pre) ++ enteredLabels c
      | _ => concat (children (shape_map enteredLabels s))
      end
  end.
(** SwitchStmt::getSwitchCaseList and getNextSwitchCase *)
Definition getSwitchCaseList (body : node) : list node := rev (enteredLabels body).
Definition isDefaultStmt (n : node) : bool := match n_shape n with DefaultStmt _ => true | _ => false end.
Definition isCaseStmt (n : node) : bool := match n_shape n with CaseStmt _ _ => true | _ => false end.

(** SwitchStatementsShouldHaveDefaultRule.cpp:67-91 *)
Definition MissingDefault_visit (n : node) : list report :=
  match n_shape n with
  | SwitchStmt _ _ body covered =>
      if covered then []
      else if negb (existsb isDefaultStmt (getSwitchCaseList body)) then [plainReport n] else []
  | _ => []
  end.
(** CoveredSwitchStatementsDontNeedDefaultRule.cpp:77-96 *)
Definition UnnecessaryDefault_visit (n : node) : list report :=
  match n_shape n with
  | SwitchStmt _ _ body covered =>
      if existsb isDefaultStmt (getSwitchCaseList body) && covered then [plainReport n] else []
  | _ => []
  end.
(** DefaultLabelNotLastInSwitchStatementRule.cpp:73-83 *)
Fixpoint misplacedDefault_loop (l : list node) : list report :=
  match l with
  | [] => []
  | current :: rest =>
      if isCaseStmt current then
        match rest with
        | next :: _ => if isDefaultStmt next then [plainReport next] else []
        | [] => []
        end ++ misplacedDefault_loop rest
      else []
  end.
(** :69-86 *)
Definition MisplacedDefault_visit (n : node) : list report :=
  match n_shape n with
  | SwitchStmt _ _ body _ => misplacedDefault_loop (getSwitchCaseList body)
  | _ => []
  end.

(** TooFewBranchesInSwitchStatementRule.cpp:12-30 *)
Definition countCaseStmts (n : node) : Z :=
  Z.of_nat (length (collect (fun m => if isCaseStmt m then [m] else []) n)).
(** :87-98 *)
Definition TooFewBranches_visit (threshold : Z) (n : node) : list report :=
  match n_shape n with
  | SwitchStmt _ _ _ _ => if (countCaseStmts n <? threshold)%Z then [plainReport n] else []
  | _ => []
  end.
Definition isSwitchStmt (n : node) : bool := match n_shape n with SwitchStmt _ _ _ _ => true | _ => false end.
Definition TooFewBranchesRule c := with_limit c $"MINIMUM_CASES_IN_SWITCH" 3 isSwitchStmt TooFewBranches_visit.

(** NonCaseLabelInSwitchStatementRule.cpp:11-28, 77-88 *)
Definition NonCaseLabel_visit (n : node) : list report :=
  match n_shape n with
  | SwitchStmt _ _ _ _ =>
      map plainReport (collect (fun m => match n_shape m with LabelStmt _ _ => [m] | _ => [] end) n)
  | _ => []
  end.

(** ** Other conventions *)

(** InvertedLogicRule.cpp:11-17 *)
Definition isInvertedLogic (condExpr : node) : bool :=
  match n_shape condExpr with
  | BinaryOperator BO_NE _ _ => true
  | UnaryOperator UO_LNot _ => true
  | _ => false
  end.
(** :69-87 *)
Definition InvertedLogic_visit (n : node) : list report :=
  match n_shape n with
  | IfStmt _ c _ (Some _) => if isInvertedLogic c then [plainReport c] else []
  | ConditionalOperator c _ _ => if isInvertedLogic c then [plainReport c] else []
  | _ => []
  end.

(** CompoundStmt::body_back, null for an empty block *)
Fixpoint body_back (l : list node) : option node :=
  match l with
  | [] => None
  | [s] => Some s
  | _ :: rest => body_back rest
  end.
(** PreferEarlyExitRule.cpp:15-30; [lines] is getLineCount of the statement's source range. *)
Definition isLongIfWithoutElse (lines : node -> Z) (threshold : Z) (statement : option node) : bool :=
  match statement with
  | Some s => match n_shape s with IfStmt _ _ _ None => (lines s >? threshold)%Z | _ => false end
  | None => false
  end.
(** :32-38, 145-148 *)
Definition earlyExitMessage : str := $"Use early exit/continue to simplify code and reduce indentation".
Definition addViolationIfStmtIsLongIf (lines : node -> Z) (threshold : Z) (stmt : option node) : list report :=
  match stmt with
  | Some s => if isLongIfWithoutElse lines threshold (Some s) then [Report s earlyExitMessage] else []
  | None => []
  end.
(** :40-47 *)
Definition getLastStatement (stmt : node) : option node :=
  match n_shape stmt with CompoundStmt l => body_back l | _ => Some stmt end.
(** :49-59 *)
Definition isFlowOfControlInterrupt (n : node) : bool :=
  match n_shape n with
  | BreakStmt | ContinueStmt | GotoStmt _ | IndirectGotoStmt _ | ReturnStmt _ => true
  | _ => false
  end.
(** :150-179 *)
Definition PreferEarlyExit_visit (lines : node -> Z) (threshold : Z) (n : node) : list report :=
  match n_shape n with
  | CompoundStmt l =>
      match rev l with
      | last :: beforeLast :: _ =>
          if isFlowOfControlInterrupt last then addViolationIfStmtIsLongIf lines threshold (Some beforeLast) else []
      | _ => []
      end
  | ForStmt _ _ _ _ b => addViolationIfStmtIsLongIf lines threshold (getLastStatement b)
  | WhileStmt _ _ b => addViolationIfStmtIsLongIf lines threshold (getLastStatement b)
  | DoStmt b _ => addViolationIfStmtIsLongIf lines threshold (getLastStatement b)
  | _ => []
  end.
Definition PreferEarlyExitRule lines c := with_setUp c $"MAXIMUM_IF_LENGTH" 15 (PreferEarlyExit_visit lines).

(** AvoidBranchingStatementAsLastInLoopRule.cpp:12-15 *)
Definition isBranchingStatement (n : node) : bool :=
  match n_shape n with BreakStmt | ContinueStmt | ReturnStmt _ => true | _ => false end.
(** :17-34 *)
Definition applyLoopBody (body : node) : list report :=
  match n_shape body with
  | CompoundStmt l =>
      match body_back l with
      | Some lastStmt => if isBranchingStatement lastStmt then [plainReport lastStmt] else []
      | None => []
      end
  | _ => []
  end.
(** :83-109 *)
Definition AvoidBranching_visit (n : node) : list report :=
  match n_shape n with
  | ForStmt _ _ _ _ b => applyLoopBody b
  | ObjCForCollectionStmt _ _ b => applyLoopBody b
  | DoStmt b _ => applyLoopBody b
  | WhileStmt _ _ b => applyLoopBody b
  | _ => []
  end.

(** ParameterReassignmentRule.cpp:25-41 *)
Definition assignsName (names : list str) (n : node) : bool :=
  match n_shape n with
  | BinaryOperator BO_Assign l _ =>
      match n_shape l with
      | DeclRefExpr _ name _ => existsb (str_eqb name) names
      | _ => false
      end
  | _ => false
  end.
(** :103-111, 119-128 *)
Definition paramName (p : node) : str := match n_shape p with VarDecl v _ => v_name v | _ => [] end.
Definition paramNames (params : list node) : list str :=
  filter (fun s => negb (is_nil s)) (map paramName params).
(** :45-56, 101-132 *)
Definition ParameterReassignment_visit (n : node) : list report :=
  match n_shape n with
  | FunctionDecl _ params _ | ObjCMethodDecl _ params _ =>
      let names := paramNames params in
      if is_nil names then []
      else map plainReport (collect (fun m => if assignsName names m then [m] else []) n)
  | _ => []
  end.

(** BaseClassDestructorShouldBeVirtualOrProtectedRule.cpp:6-16 *)
Definition hasVirtualOrProtectedDestructor (c : cxxrecord) : bool :=
  match c with
  | CxxRecord _ _ _ _ (Some (virtual, protected)) _ => virtual || protected
  | _ => false
  end.
Definition cr_name (c : cxxrecord) : str := match c with CxxRecord _ n _ _ _ _ => n end.
Definition cr_bases (c : cxxrecord) : list (bool * option cxxrecord) := match c with CxxRecord _ _ _ _ _ b => b end.
(** :18-22 *)
Definition baseMessage (base child : cxxrecord) : str :=
  $"~" ++ cr_name base ++ $"() should be protected or virtual according to class " ++ cr_name child.
(** :123-149 with the loop over the bases inlined: the reports for one base specifier.
    A report is the base class with the message. *)
Fixpoint checkBase (child : cxxrecord) (base : cxxrecord) {struct base} : list (cxxrecord * str) :=
  match base with
  | CxxRecord id name hasDefinition polymorphic destructor bases =>
      let this := CxxRecord id name hasDefinition polymorphic destructor bases in
      if negb hasDefinition then []
      else (if hasVirtualOrProtectedDestructor this then [] else [(this, baseMessage this child)])
        ++ if polymorphic then []
           else flat_map (fun b => match b with
                                   | (true, Some c) => checkBase child c
                                   | _ => []
                                   end) bases
  end.
(** :109-118 *)
Definition BaseClassDestructor_visit (n : node) : list (cxxrecord * str) :=
  match n_shape n with
  | CXXRecordDecl r _ =>
      match r_class r with
      | CxxRecord _ _ true true _ bases =>
          flat_map (fun b => match b with
                             | (true, Some c) => checkBase (r_class r) c
                             | _ => []
                             end) bases
      | _ => []
      end
  | _ => []
  end.

(** DestructorOfVirtualClassRule.cpp:6-17, 69-79 *)
Definition DestructorOfVirtualClass_visit (n : node) : list report :=
  match n_shape n with
  | CXXRecordDecl r _ =>
      match r_class r with
      | CxxRecord _ className true true destructor _ =>
          match destructor with
          | Some (true, _) => []
          | _ => [Report n ($"class " ++ className ++ $" should have a virtual destructor ~" ++ className ++ $"()")]
          end
      | _ => []
      end
  | _ => []
  end.

(** lib/util/StdUtil.cpp:5-19 *)
Definition removeUnderscores (s : str) : str := filter (fun c => negb (ascii_eqb c "_"%char)) s.
Definition capitalizeFirstLetter (s : str) : str :=
  match s with [] => [] | c :: rest => toupper c :: rest end.
(** ObjCAssignIvarOutsideAccessorsRule.cpp:11-60: the ivar references on the left of assignments *)
Definition ivarRefs (n : node) : list (node * str) :=
  collect (fun m => match n_shape m with ObjCIvarRefExpr name _ _ => [(m, name)] | _ => [] end) n.
Definition assignedIvars (n : node) : list (node * str) :=
  collect (fun m => match n_shape m with
                    | BinaryOperator BO_Assign l _ => ivarRefs l
                    | BinaryOperator BO_CompoundAssign l _ => ivarRefs l
                    | _ => []
                    end) n.
(** :128-155 *)
Definition AssignIvar_visit (n : node) : list report :=
  match n_shape n with
  | ObjCMethodDecl mi _ _ =>
      let selectorName := om_selector mi in
      flat_map (fun access =>
        let getterName := removeUnderscores (snd access) in
        let setterName := $"set" ++ capitalizeFirstLetter getterName ++ $":" in
        if negb (str_eqb selectorName getterName) && negb (str_eqb selectorName setterName)
           && negb (str_eqb (substr selectorName 0 4) $"init")
        then [plainReport (fst access)] else []) (assignedIvars n)
  | _ => []
  end.

(** cuda/CudaBranchDivergenceRule.cpp:73-81 *)
Definition BranchDivergence_visit (n : node) : list report :=
  match n_shape n with
  | IfStmt _ _ _ (Some _) => [plainReport n]
  | _ => []
  end.
