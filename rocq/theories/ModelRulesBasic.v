(** * Model of oclint-rules/rules/empty and oclint-rules/rules/basic *)
From Verif Require Import Base ModelAST ModelRules.

(** addViolation(node, this): the message defaults to the empty string. *)
Definition plainReport (n : node) : report := Report n [].

(** ** rules/abstract/AbstractEmptyBlockStmtRule.h *)

(** AbstractEmptyBlockStmtRule.h:8-12 *)
Definition isLexicalEmpty (stmt : node) : bool :=
  match n_shape stmt with
  | NullStmt => true
  | CompoundStmt l => is_nil l
  | _ => false
  end.
(** AbstractEmptyBlockStmtRule.h:14-22; [None] is a null statement. *)
Definition checkLexicalEmptyStmt (stmt : option node) : list report :=
  match stmt with
  | Some s => if isLexicalEmpty s then [plainReport s] else []
  | None => []
  end.
(** EmptyCatchStatementRule.cpp:59-67 *)
Definition EmptyCatch_visit (n : node) : list report :=
  match n_shape n with
  | CXXCatchStmt _ b => checkLexicalEmptyStmt (Some b)
  | ObjCAtCatchStmt _ b => checkLexicalEmptyStmt (Some b)
  | _ => []
  end.
(** EmptyDoWhileStatementRule.cpp:54-57 *)
Definition EmptyDoWhile_visit (n : node) : list report :=
  match n_shape n with DoStmt b _ => checkLexicalEmptyStmt (Some b) | _ => [] end.
(** EmptyElseBlockRule.cpp:63-66 *)
Definition EmptyElse_visit (n : node) : list report :=
  match n_shape n with IfStmt _ _ _ e => checkLexicalEmptyStmt e | _ => [] end.
(** EmptyFinallyStatementRule.cpp:63-66 *)
Definition EmptyFinally_visit (n : node) : list report :=
  match n_shape n with ObjCAtFinallyStmt b => checkLexicalEmptyStmt (Some b) | _ => [] end.
(** EmptyForStatementRule.cpp:58-66 *)
Definition EmptyFor_visit (n : node) : list report :=
  match n_shape n with
  | ForStmt _ _ _ _ b => checkLexicalEmptyStmt (Some b)
  | ObjCForCollectionStmt _ _ b => checkLexicalEmptyStmt (Some b)
  | _ => []
  end.
(** EmptyIfStatementRule.cpp:55-58 *)
Definition EmptyIf_visit (n : node) : list report :=
  match n_shape n with IfStmt _ _ t _ => checkLexicalEmptyStmt (Some t) | _ => [] end.
(** EmptySwitchStatementRule.cpp:54-57 *)
Definition EmptySwitch_visit (n : node) : list report :=
  match n_shape n with SwitchStmt _ _ b _ => checkLexicalEmptyStmt (Some b) | _ => [] end.
(** EmptyTryStatementRule.cpp:58-66 *)
Definition EmptyTry_visit (n : node) : list report :=
  match n_shape n with
  | CXXTryStmt b _ => checkLexicalEmptyStmt (Some b)
  | ObjCAtTryStmt b _ _ => checkLexicalEmptyStmt (Some b)
  | _ => []
  end.
(** EmptyWhileStatementRule.cpp:54-57 *)
Definition EmptyWhile_visit (n : node) : list report :=
  match n_shape n with WhileStmt _ _ b => checkLexicalEmptyStmt (Some b) | _ => [] end.

(** ** rules/basic *)

(** The matcher of BitwiseOperatorInConditionalRule.cpp:88-89 *)
Definition isBitwise (n : node) : bool :=
  match n_shape n with
  | BinaryOperator BO_And _ _ | BinaryOperator BO_Or _ _ | BinaryOperator BO_Xor _ _ => true
  | _ => false
  end.
(** BitwiseOperatorInConditionalRule.cpp:58-111 with AbstractASTMatcherRule.cpp:10-34: the
    matchers run on every node visited; hasDescendant searches everything below. *)
Definition BitwiseOperatorInConditional_visit (n : node) : list report :=
  let check cond := if isBitwise cond || existsb (found isBitwise) (children (n_shape cond))
                    then [plainReport cond] else [] in
  match n_shape n with
  | IfStmt _ c _ _ => check c
  | WhileStmt _ c _ => check c
  | DoStmt _ c => check c
  | ConditionalOperator c _ _ => check c
  | _ => []
  end.

(** BrokenOddnessCheckRule.cpp:11-28 *)
Definition isIntegerLiteral (expr : node) (value : Z) : bool :=
  match n_shape expr with IntegerLiteral v => (v =? value)%Z | _ => false end.
Definition isRemainderWhenDevidingByTwo (expr : node) : bool :=
  match n_shape expr with
  | BinaryOperator BO_Rem _ r => isIntegerLiteral r 2
  | _ => false
  end.
Definition isRemainderEqualsOne (leftExpr rightExpr : node) : bool :=
  (isIntegerLiteral rightExpr 1 && isRemainderWhenDevidingByTwo leftExpr)
  || (isIntegerLiteral leftExpr 1 && isRemainderWhenDevidingByTwo rightExpr).
(** BrokenOddnessCheckRule.cpp:77-87 *)
Definition BrokenOddnessCheck_visit (n : node) : list report :=
  match n_shape n with
  | BinaryOperator BO_EQ l r => if isRemainderEqualsOne l r then [plainReport n] else []
  | _ => []
  end.

Definition isIfStmt (n : node) : bool := match n_shape n with IfStmt _ _ _ _ => true | _ => false end.
(** CollapsibleIfStatementsRule.cpp:11-32 *)
Definition getInnerIfStmt (ifStmt : node) : option node :=
  match n_shape ifStmt with
  | IfStmt _ _ thenStmt _ =>
      if isIfStmt thenStmt then Some thenStmt
      else match n_shape thenStmt with
           | CompoundStmt [s] => if isIfStmt s then Some s else None
           | _ => None
           end
  | _ => None
  end.
Definition getElse (ifStmt : node) : option node :=
  match n_shape ifStmt with IfStmt _ _ _ e => e | _ => None end.
Definition is_some {A} (o : option A) : bool := match o with Some _ => true | None => false end.
(** CollapsibleIfStatementsRule.cpp:34-37 *)
Definition checkElseBranch (outerIf innerIf : node) : bool :=
  is_some (getElse outerIf) || is_some (getElse innerIf).
(** CollapsibleIfStatementsRule.cpp:86-95 *)
Definition CollapsibleIf_visit (n : node) : list report :=
  match n_shape n with
  | IfStmt _ _ _ _ =>
      match getInnerIfStmt n with
      | Some innerIf => if negb (checkElseBranch n innerIf) then [plainReport n] else []
      | None => []
      end
  | _ => []
  end.

(** ConstantConditionalOperatorRule.cpp:52-63 and ConstantIfExpressionRule.cpp:58-69;
    [evaluate] is Expr::EvaluateAsBooleanCondition. *)
Definition ConstantConditional_visit (evaluate : node -> option bool) (n : node) : list report :=
  match n_shape n with
  | ConditionalOperator c _ _ => if is_some (evaluate c) then [plainReport c] else []
  | _ => []
  end.
Definition ConstantIf_visit (evaluate : node -> option bool) (n : node) : list report :=
  match n_shape n with
  | IfStmt _ c _ _ => if is_some (evaluate c) then [plainReport c] else []
  | _ => []
  end.

(** DeadCodeRule.cpp:9-20 *)
Definition isAnyLabelStmt (n : node) : bool :=
  match n_shape n with CaseStmt _ _ | DefaultStmt _ | LabelStmt _ _ => true | _ => false end.
Inductive exittype := NoExit | RestartScope | ExitScope | FullExit.
Definition exittype_eqb (a b : exittype) : bool :=
  match a, b with
  | NoExit, NoExit | RestartScope, RestartScope | ExitScope, ExitScope | FullExit, FullExit => true
  | _, _ => false
  end.
(** DeadCodeRule.cpp:43-53 over the results for the statements *)
Fixpoint firstExit (l : list exittype) : exittype :=
  match l with
  | [] => NoExit
  | x :: rest => if negb (exittype_eqb x NoExit) then x else firstExit rest
  end.
(** DeadCodeRule.cpp:62-76 *)
Definition bothExit (thenE elseE : exittype) : exittype :=
  if exittype_eqb thenE elseE then thenE
  else if exittype_eqb thenE NoExit || exittype_eqb elseE NoExit then NoExit
  else if exittype_eqb thenE ExitScope || exittype_eqb elseE ExitScope then ExitScope
  else FullExit.
(** DeadCodeRule.cpp:22-82; expressions other than throw fall through to VisitStmt. *)
Fixpoint exitType (n : node) : exittype :=
  match n with
  | Node _ _ s =>
      match s with
      | BreakStmt => ExitScope
      | ContinueStmt => RestartScope
      | ReturnStmt _ => FullExit
      | GotoStmt _ => FullExit
      | CXXThrowExpr _ => FullExit
      | ObjCAtThrowStmt _ => FullExit
      | CaseStmt _ sub => exitType sub
      | DefaultStmt sub => exitType sub
      | CompoundStmt l => firstExit (map exitType l)
      | IfStmt _ _ t (Some e) => bothExit (exitType t) (exitType e)
      | _ => NoExit
      end
  end.
(** DeadCodeRule.cpp:84-87 *)
Definition isAnyReturnStmt (n : node) : bool := negb (exittype_eqb (exitType n) NoExit).
(** DeadCodeRule.cpp:140-151; entries of a block are never null. *)
Fixpoint deadCode_loop (body : list node) (hasBreakPoint : bool) : list report :=
  match body with
  | [] => []
  | bodyStmt :: rest =>
      if hasBreakPoint && negb (isAnyLabelStmt bodyStmt) then [plainReport bodyStmt]
      else deadCode_loop rest (isAnyReturnStmt bodyStmt)
  end.
Definition DeadCode_visit (n : node) : list report :=
  match n_shape n with CompoundStmt l => deadCode_loop l false | _ => [] end.

(** The loops of DoubleNegativeRule.cpp:64-69 and MultipleUnaryOperatorRule.cpp:61-66 *)
Fixpoint skipParens (n : node) : node :=
  match n with
  | Node _ _ (ParenExpr e) => skipParens e
  | _ => n
  end.
(** DoubleNegativeRule.cpp:11-19, 62-81 *)
Definition DoubleNegative_visit (n : node) : list report :=
  match n_shape n with
  | UnaryOperator outer sub =>
      match n_shape (skipParens sub) with
      | UnaryOperator inner _ =>
          if (unop_eqb outer UO_LNot && unop_eqb inner UO_LNot)
             || (unop_eqb outer UO_Not && unop_eqb inner UO_Not)
          then [plainReport n] else []
      | _ => []
      end
  | _ => []
  end.
(** MultipleUnaryOperatorRule.cpp:11-17, 59-77 *)
Definition isTargetUnaryOperator (op : unop) : bool :=
  unop_eqb op UO_LNot || unop_eqb op UO_Not || unop_eqb op UO_Plus || unop_eqb op UO_Minus.
Definition MultipleUnary_visit (n : node) : list report :=
  match n_shape n with
  | UnaryOperator outer sub =>
      match n_shape (skipParens sub) with
      | UnaryOperator inner _ =>
          if isTargetUnaryOperator outer && isTargetUnaryOperator inner then [plainReport n] else []
      | _ => []
      end
  | _ => []
  end.

(** ForLoopShouldBeWhileLoopRule.cpp:54-65 *)
Definition ForLoopShouldBeWhile_visit (n : node) : list report :=
  match n_shape n with
  | ForStmt None _ (Some c) None _ =>
      match n_shape c with NullStmt => [] | _ => [plainReport n] end
  | _ => []
  end.

(** GotoStatementRule.cpp:71-79 *)
Definition Goto_visit (n : node) : list report :=
  match n_shape n with GotoStmt _ => [plainReport n] | _ => [] end.

(** JumbledIncrementerRule.cpp:11-41; a variable is compared by identity. *)
Definition varDeclFromInitStmt (initStmt : option node) : option nat :=
  match initStmt with
  | Some i =>
      match n_shape i with
      | DeclStmt [d] => match n_shape d with VarDecl _ _ => Some (n_id d) | _ => None end
      | _ => None
      end
  | None => None
  end.
Definition valueDeclFromIncExpr (incExpr : option node) : option nat :=
  match incExpr with
  | Some e =>
      match n_shape e with
      | UnaryOperator _ sub => match n_shape sub with DeclRefExpr d _ _ => Some d | _ => None end
      | _ => None
      end
  | None => None
  end.
Definition isInnerIncMatchingOuterInit (incExpr initStmt : option node) : bool :=
  match varDeclFromInitStmt initStmt, valueDeclFromIncExpr incExpr with
  | Some v, Some d => v =? d
  | _, _ => false
  end.
(** JumbledIncrementerRule.cpp:86-106 *)
Definition isForStmt (n : node) : bool := match n_shape n with ForStmt _ _ _ _ _ => true | _ => false end.
Definition JumbledIncrementer_visit (n : node) : list report :=
  match n_shape n with
  | ForStmt init _ _ _ body =>
      let inner :=
        if isForStmt body then Some body
        else match n_shape body with
             | CompoundStmt [s] => if isForStmt s then Some s else None
             | _ => None
             end in
      match inner with
      | Some f =>
          match n_shape f with
          | ForStmt _ _ _ (Some inc) _ =>
              if isInnerIncMatchingOuterInit (Some inc) init then [plainReport inc] else []
          | _ => []
          end
      | None => []
      end
  | _ => []
  end.

(** ReturnFromFinallyBlockRule.cpp:10-27, 80-91 *)
Definition ReturnFromFinally_visit (n : node) : list report :=
  match n_shape n with
  | ObjCAtFinallyStmt _ =>
      map plainReport
        (collect (fun m => match n_shape m with ReturnStmt _ => [m] | _ => [] end) n)
  | _ => []
  end.

(** ThrowExceptionFromFinallyBlockRule.cpp:43-62 *)
Definition isExceptionRaiser (n : node) : bool :=
  match n_shape n with
  | ObjCMessageExpr m _ _ =>
      existsb (str_eqb (ms_selector m)) [$"raise"; $"raise:format:"; $"raise:format:arguments:"]
      && match ms_interface m with Some c => str_eqb c $"NSException" | None => false end
  | _ => false
  end.
(** ThrowExceptionFromFinallyBlockRule.cpp:12-29, 118-137 *)
Definition ThrowFromFinally_visit (n : node) : list report :=
  match n_shape n with
  | ObjCAtFinallyStmt _ =>
      map plainReport
        (collect (fun m => match n_shape m with ObjCAtThrowStmt _ => [m] | _ => [] end) n)
      ++ map plainReport (collect (fun m => if isExceptionRaiser m then [m] else []) n)
  | _ => []
  end.
