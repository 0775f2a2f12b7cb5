(** * Model of the null check rules: rules/abstract/AbstractNullCheckRule.h, rules/basic and
    rules/redundant/RedundantNilCheckRule.cpp *)
From Verif Require Import Base ModelConfig ModelAST ModelRules ModelRulesBasic.

(** ** AbstractNullCheckRule.h *)

(** :8-33 *)
Definition isNullToPointer (expr : node) : bool :=
  match n_shape expr with
  | ImplicitCastExpr CK_NullToPointer _ => true
  | ImplicitCastExpr CK_BitCast sub =>
      match n_shape (skipParens sub) with CStyleCastExpr CK_NullToPointer _ => true | _ => false end
  | _ => false
  end.
(** :35-53 *)
Definition isImplicitDeclRef (expr : node) : bool :=
  match n_shape expr with
  | ImplicitCastExpr CK_PointerToBoolean _ => true
  | ImplicitCastExpr CK_LValueToRValue sub =>
      match n_shape sub with DeclRefExpr _ _ _ => true | _ => false end
  | _ => false
  end.
(** :55-72 *)
Definition isEqNullCheck (expr : node) : bool :=
  match n_shape expr with
  | BinaryOperator op l r => binop_eqb op BO_EQ && negb (Bool.eqb (isNullToPointer l) (isNullToPointer r))
  | UnaryOperator UO_LNot sub => isImplicitDeclRef sub
  | _ => false
  end.
(** :74-86 *)
Definition isNeNullCheck (expr : node) : bool :=
  match n_shape expr with
  | BinaryOperator op l r => binop_eqb op BO_NE && negb (Bool.eqb (isNullToPointer l) (isNullToPointer r))
  | _ => isImplicitDeclRef expr
  end.
(** :88-102, on dyn_cast<ImplicitCastExpr>(expr) *)
Fixpoint extractIdentifierFromCast (expr : node) : str :=
  match expr with
  | Node _ _ (ImplicitCastExpr CK_PointerToBoolean sub) => extractIdentifierFromCast sub
  | Node _ _ (ImplicitCastExpr _ sub) =>
      match n_shape sub with DeclRefExpr _ name _ => name | _ => [] end
  | _ => []
  end.
(** :104-142 *)
Definition extractIdentifierFromExpr (expr : node) : str :=
  match n_shape expr with
  | ImplicitCastExpr _ _ => extractIdentifierFromCast expr
  | BinaryOperator _ l r => extractIdentifierFromCast (if isNullToPointer l then r else l)
  | UnaryOperator _ sub => extractIdentifierFromCast sub
  | _ => []
  end.
(** :144-169; a dereference [name->member] *)
Definition memberOf (name : str) (n : node) : bool :=
  match n_shape n with
  | MemberExpr true base => str_eqb name (extractIdentifierFromCast base)
  | _ => false
  end.
Definition hasVariableInMember (name : str) (expr : node) : bool := found (memberOf name) expr.
(** :171-193; a message to [name].  getInstanceReceiver is null for messages to a class or super *)
Definition messageTo (name : str) (n : node) : bool :=
  match n_shape n with
  | ObjCMessageExpr _ (Some receiver) _ => str_eqb name (extractIdentifierFromCast receiver)
  | ObjCMessageExpr _ None _ => str_eqb name []
  | _ => false
  end.
Definition hasVariableInMessage (name : str) (expr : node) : bool := found (messageTo name) expr.

(** ** The rules; [hasVariable] is hasVariableInExpr *)

(** "name == "" ? false : hasVariableInExpr(name, expr)" *)
Definition sameVariable (hasVariable : str -> node -> bool) (check other : node) : bool :=
  match extractIdentifierFromExpr check with
  | [] => false
  | name => hasVariable name other
  end.
(** BrokenNullCheckRule.cpp:13-47 *)
Definition isNullCheckBroken (op : binop) (lhs : node) : bool :=
  match op with
  | BO_LOr => isNeNullCheck lhs
  | BO_LAnd => isEqNullCheck lhs
  | _ => false
  end.
Definition BrokenCheck_visit (hasVariable : str -> node -> bool) (n : node) : list report :=
  match n_shape n with
  | BinaryOperator op l r =>
      if isNullCheckBroken op l && sameVariable hasVariable l r then [plainReport n] else []
  | _ => []
  end.
Definition BrokenNullCheck_visit := BrokenCheck_visit hasVariableInMember.
Definition BrokenNilCheck_visit := BrokenCheck_visit hasVariableInMessage.
(** MisplacedNullCheckRule.cpp:13-47 *)
Definition isNullCheckMisplaced (op : binop) (rhs : node) : bool :=
  match op with
  | BO_LAnd => isNeNullCheck rhs
  | BO_LOr => isEqNullCheck rhs
  | _ => false
  end.
Definition MisplacedCheck_visit (hasVariable : str -> node -> bool) (n : node) : list report :=
  match n_shape n with
  | BinaryOperator op l r =>
      if isNullCheckMisplaced op r && sameVariable hasVariable r l then [plainReport n] else []
  | _ => []
  end.
Definition MisplacedNullCheck_visit := MisplacedCheck_visit hasVariableInMember.
Definition MisplacedNilCheck_visit := MisplacedCheck_visit hasVariableInMessage.
(** RedundantNilCheckRule.cpp:14-40, 91-99 *)
Definition isRedundantNilCheck (op : binop) (lhs rhs : node) : bool :=
  binop_eqb op BO_LAnd && isNeNullCheck lhs
  && match n_shape rhs with UnaryOperator o _ => negb (unop_eqb o UO_LNot) | _ => true end.
Definition RedundantNilCheck_visit (n : node) : list report :=
  match n_shape n with
  | BinaryOperator op l r =>
      if isRedundantNilCheck op l r && sameVariable hasVariableInMessage l r then [plainReport n] else []
  | _ => []
  end.
