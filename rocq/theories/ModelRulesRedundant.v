(** * Model of oclint-rules/rules/redundant (but the nil check: see ModelRulesNullCheck) *)
From Verif Require Import Base ModelConfig ModelAST ModelRules ModelRulesBasic.

(** ** RedundantConditionalOperatorRule.cpp *)

(** :12-21 *)
Definition extractFromImplicitCastExpr (fromExpr : node) : option node :=
  match n_shape fromExpr with ImplicitCastExpr _ sub => Some sub | _ => None end.
(** dyn_cast to the literal classes, with getValue; an integer by its getBoolValue *)
Definition cxxBool (n : node) : option bool :=
  match n_shape n with CXXBoolLiteralExpr b => Some b | _ => None end.
Definition objcBool (n : node) : option bool :=
  match n_shape n with ObjCBoolLiteralExpr b => Some b | _ => None end.
Definition integer (n : node) : option Z :=
  match n_shape n with IntegerLiteral v => Some v | _ => None end.
Definition integerBool (n : node) : option bool :=
  match integer n with Some v => Some (negb (v =? 0)%Z) | None => None end.
Definition castIntegerBool (n : node) : option bool :=
  match n_shape n with CStyleCastExpr _ sub => integerBool sub | _ => None end.
Definition floating (n : node) : option Z :=
  match n_shape n with FloatingLiteral v => Some v | _ => None end.
Definition character (n : node) : option Z :=
  match n_shape n with CharacterLiteral v => Some v | _ => None end.
Definition stringBytes (n : node) : option str :=
  match n_shape n with StringLiteral s => Some s | _ => None end.
Definition referenced (n : node) : option nat :=
  match n_shape n with DeclRefExpr d _ _ => Some d | _ => None end.
Definition within (f : node -> option bool) (n : node) : option bool :=
  match extractFromImplicitCastExpr n with Some m => f m | None => None end.
Definition both {A} (f : node -> option A) (eq : A -> A -> bool) (trueExpr falseExpr : node) : bool :=
  match f trueExpr, f falseExpr with Some a, Some b => eq a b | _, _ => false end.
Definition differ (a b : bool) : bool := negb (Bool.eqb a b).

(** :23-35 *)
Definition isCXXBoolNotEquals := both cxxBool differ.
Definition isCXXBoolEquals := both cxxBool Bool.eqb.
(** :39-57 *)
Definition isObjCBOOLNotEquals := both (within objcBool) differ.
Definition isObjCBOOLEquals := both (within objcBool) Bool.eqb.
(** :59-90 *)
Definition isObjCIntegerLiteralBOOLNotEquals := both (within castIntegerBool) differ.
Definition isObjCIntegerLiteralBOOLEquals := both (within castIntegerBool) Bool.eqb.
(** :92-120.  Integers are compared by value, their widths taken to agree. *)
Definition isIntegerLiteralEquals := both integer Z.eqb.
Definition isFloatingLiteralEquals := both floating Z.eqb.
Definition isCharacterLiteralEquals := both character Z.eqb.
Definition isStringLiteralEquals (trueExpr falseExpr : node) : bool :=
  match extractFromImplicitCastExpr trueExpr, extractFromImplicitCastExpr falseExpr with
  | Some t, Some f => both stringBytes str_eqb t f
  | _, _ => false
  end.
(** :122-127 *)
Definition isNotEquals (trueExpr falseExpr : node) : bool :=
  isCXXBoolNotEquals trueExpr falseExpr || isObjCBOOLNotEquals trueExpr falseExpr
  || isObjCIntegerLiteralBOOLNotEquals trueExpr falseExpr.
(** :129-138 *)
Definition isSameConstant (trueExpr falseExpr : node) : bool :=
  isCXXBoolEquals trueExpr falseExpr || isObjCBOOLEquals trueExpr falseExpr
  || isObjCIntegerLiteralBOOLEquals trueExpr falseExpr || isIntegerLiteralEquals trueExpr falseExpr
  || isFloatingLiteralEquals trueExpr falseExpr || isCharacterLiteralEquals trueExpr falseExpr
  || isStringLiteralEquals trueExpr falseExpr.
(** :140-145 *)
Definition isSameVariable (trueExpr falseExpr : node) : bool :=
  match extractFromImplicitCastExpr trueExpr, extractFromImplicitCastExpr falseExpr with
  | Some t, Some f => both referenced Nat.eqb t f
  | _, _ => false
  end.
(** :199-218 *)
Definition RedundantConditional_visit (n : node) : list report :=
  match n_shape n with
  | ConditionalOperator _ t f =>
      if isNotEquals t f || isSameConstant t f || isSameVariable t f then [plainReport n] else []
  | _ => []
  end.

(** ** RedundantIfStatementRule.cpp *)

(** :11-26, for the class of nodes on which [isa] answers *)
Fixpoint extractStmt {A} (isa : node -> option A) (fromStmt : node) : option A :=
  match fromStmt with
  | Node i ty s =>
      match isa (Node i ty s) with
      | Some a => Some a
      | None => match s with CompoundStmt [only] => extractStmt isa only | _ => None end
      end
  end.
Definition extractOpt {A} (isa : node -> option A) (fromStmt : option node) : option A :=
  match fromStmt with Some n => extractStmt isa n | None => None end.
(** dyn_cast<ReturnStmt> with getRetValue, dyn_cast<BinaryOperator> with getRHS *)
Definition returnValue (n : node) : option (option node) :=
  match n_shape n with ReturnStmt v => Some v | _ => None end.
Definition rightHandSide (n : node) : option node :=
  match n_shape n with BinaryOperator _ _ r => Some r | _ => None end.
(** :28-63 *)
Definition if_isNotEquals (firstExpr secondExpr : node) : bool :=
  both cxxBool differ firstExpr secondExpr || both objcBool differ firstExpr secondExpr
  || both castIntegerBool differ firstExpr secondExpr.
(** :65-73 *)
Definition doesReturnStatementsViolateRule (first second : option (option node)) : bool :=
  match first, second with
  | Some (Some a), Some (Some b) => if_isNotEquals a b
  | _, _ => false
  end.
Definition doesBinaryOperatorsViolateRule (first second : option node) : bool :=
  match first, second with Some a, Some b => if_isNotEquals a b | _, _ => false end.
(** :124-137 *)
Definition RedundantIf_visit (n : node) : list report :=
  match n_shape n with
  | IfStmt _ _ t e =>
      if doesReturnStatementsViolateRule (extractStmt returnValue t) (extractOpt returnValue e)
         || doesBinaryOperatorsViolateRule (extractStmt rightHandSide t) (extractOpt rightHandSide e)
      then [plainReport n] else []
  | _ => []
  end.

(** ** RedundantLocalVariableRule.cpp *)

(** dyn_cast<NamedDecl> with getName; other declarations are taken to be unnamed *)
Definition declaredName (n : node) : option str :=
  match n_shape n with
  | VarDecl v _ => Some (v_name v)
  | FunctionDecl f _ _ => Some (f_name f)
  | CXXRecordDecl r _ => match r_class r with CxxRecord _ name _ _ _ _ => Some name end
  | _ => None
  end.
(** :11-30 *)
Definition returnedName (lastStmt : node) : option str :=
  match n_shape lastStmt with
  | ReturnStmt (Some v) =>
      match extractFromImplicitCastExpr v with
      | Some e => match n_shape e with DeclRefExpr _ name _ => Some name | _ => None end
      | None => None
      end
  | _ => None
  end.
(** :32-41 *)
Definition singleDecl (lastSecondStmt : node) : option node :=
  match n_shape lastSecondStmt with DeclStmt [d] => Some d | _ => None end.
(** :86-99; the two statements at the end of the block *)
Fixpoint lastTwo (l : list node) : option (node * node) :=
  match l with
  | [a; b] => Some (a, b)
  | _ :: rest => lastTwo rest
  | [] => None
  end.
Definition RedundantLocal_visit (n : node) : list report :=
  match n_shape n with
  | CompoundStmt l =>
      match lastTwo l with
      | Some (lastSecondStmt, lastStmt) =>
          match returnedName lastStmt, singleDecl lastSecondStmt with
          | Some name, Some d =>
              match declaredName d with
              | Some name' => if str_eqb name name' then [plainReport d] else []
              | None => []
              end
          | _, _ => []
          end
      | None => []
      end
  | _ => []
  end.

(** ** UnnecessaryElseStatementRule.cpp *)

(** :11-46 *)
Fixpoint areAllBranchesReturn (n : node) : bool :=
  match n with
  | Node _ _ (CompoundStmt l) => existsb areAllBranchesReturn l
  | Node _ _ (IfStmt _ _ t (Some e)) => areAllBranchesReturn t && areAllBranchesReturn e
  | Node _ _ (IfStmt _ _ t None) => false
  | Node _ _ (ReturnStmt _) => true
  | _ => false
  end.
Definition isIf (n : node) : bool := match n_shape n with IfStmt _ _ _ _ => true | _ => false end.
(** :137-158: the ifs of the chain from [n] on, and what the last else is *)
Fixpoint elseChain (n : node) : list node * option node :=
  match n with
  | Node i ty (IfStmt p c t (Some e)) =>
      if isIf e then (n :: fst (elseChain e), snd (elseChain e)) else ([n], Some e)
  | _ => ([n], None)
  end.
(** :48-58 *)
Definition allThensReturn (ifStmts : list node) : bool :=
  forallb (fun n => match n_shape n with IfStmt _ _ t _ => areAllBranchesReturn t | _ => false end) ifStmts.
(** :60-72, 130-166; the state is the list of the ifs visited so far in the unit *)
Definition UnnecessaryElse_visit (n : node) (visited : list nat) : list nat * list report :=
  if isIf n then
    if existsb (Nat.eqb (n_id n)) visited then (visited, [])
    else
      let '(ifStmts, lastElseStmt) := elseChain n in
      (visited ++ map n_id ifStmts,
       match lastElseStmt with
       | Some e => if allThensReturn ifStmts then [plainReport e] else []
       | None => []
       end)
  else (visited, []).
(** A rule with a state that lasts from setUp (:125-128) to the end of the unit, on the
    declarations of the unit. *)
Definition stateful_visit {S} (visit : node -> S -> S * list report) (m : node) (st : S * list report)
  : bool * (S * list report) :=
  let '(s, rs) := st in let '(s', r) := visit m s in (true, (s', rs ++ r)).
Definition reports_stateful {S} (visit : node -> S -> S * list report) (init : S) (roots : list node)
  : list report :=
  snd (fold_left (fun st root => snd (traverse (stateful_visit visit) root st)) roots (init, [])).
Definition UnnecessaryElseRule : list node -> list report := reports_stateful UnnecessaryElse_visit [].

(** ** UselessParenthesesRule.cpp *)

(** :11-17 *)
Definition addParenExprToViolation (expr : option node) : list report :=
  match expr with
  | Some e => match n_shape e with ParenExpr _ => [plainReport e] | _ => [] end
  | None => []
  end.
(** :64-83 *)
Definition UselessParentheses_visit (n : node) : list report :=
  match n_shape n with
  | IfStmt _ c _ _ => addParenExprToViolation (Some c)
  | ReturnStmt v => addParenExprToViolation v
  | VarDecl _ i => addParenExprToViolation i
  | _ => []
  end.

(** ** UnnecessaryNullCheckForCXXDeallocRule.cpp *)

(** ASTUtil.cpp:90-100 *)
Fixpoint isANullPointerExpr (expr : node) : bool :=
  match expr with
  | Node _ _ (ImplicitCastExpr k sub) | Node _ _ (CStyleCastExpr k sub) | Node _ _ (OtherCastExpr k sub) =>
      castkind_eqb k CK_NullToPointer || isANullPointerExpr sub
  | _ => false
  end.
(** ASTUtil.cpp:111-120 *)
Fixpoint ignoreCastExpr (expr : node) : node :=
  match expr with
  | Node _ _ (ImplicitCastExpr _ sub) | Node _ _ (CStyleCastExpr _ sub) | Node _ _ (OtherCastExpr _ sub) =>
      ignoreCastExpr sub
  | _ => expr
  end.
(** :7-36; what the condition tests to be no null pointer, if anything *)
Definition IsCondNoNullPointer (expr : node) : option node :=
  match n_shape expr with
  | BinaryOperator BO_NE lhs rhs =>
      if isANullPointerExpr lhs then Some (ignoreCastExpr rhs)
      else if isANullPointerExpr rhs then Some (ignoreCastExpr lhs)
      else None
  | BinaryOperator _ _ _ => None
  | _ => Some (ignoreCastExpr expr)
  end.
Section Dealloc.
  (** ASTUtil.cpp:102-109: Clang's structural profile tells equal expressions *)
  Variable areSameExpr : node -> node -> bool.
  (** :38-47 *)
  Definition IsADeleteStmt (stmt exprPointer : node) : bool :=
    match n_shape stmt with
    | CXXDeleteExpr a => areSameExpr (ignoreCastExpr a) exprPointer
    | _ => false
    end.
  (** :49-60 *)
  Definition IsAnAssignToNullptr (stmt expr : node) : bool :=
    match n_shape stmt with
    | BinaryOperator BO_Assign lhs rhs => isANullPointerExpr rhs && areSameExpr (ignoreCastExpr lhs) expr
    | _ => false
    end.
  (** :62-94 *)
  Definition IsADeleteBlock (stmt expr : node) : bool :=
    match n_shape stmt with
    | CompoundStmt [first] => IsADeleteStmt first expr
    | CompoundStmt [first; second] => IsADeleteStmt first expr && IsAnAssignToNullptr second expr
    | CompoundStmt _ => false
    | _ => IsADeleteStmt stmt expr
    end.
  (** :151-168 *)
  Definition UnnecessaryNullCheck_visit (n : node) : list report :=
    match n_shape n with
    | IfStmt _ c t None =>
        match IsCondNoNullPointer c with
        | Some pointer => if IsADeleteBlock t pointer then [plainReport n] else []
        | None => []
        end
    | _ => []
    end.
End Dealloc.
