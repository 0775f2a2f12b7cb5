(** * Specification vocabulary for the rules on redundant code *)
From Verif Require Import Base ModelAST ModelRules SpecFilter SpecAST SpecRules SpecExec SpecRulesBasic.

(** ** Literals *)
(** [n] is, within an implicit cast, [m]. *)
Definition implicitly (n m : node) : Prop := exists k, n_shape n = ImplicitCastExpr k m.
(** A boolean literal: true, YES, or a cast integer like (BOOL)1 with its truth value. *)
Inductive bool_literal : node -> bool -> Prop :=
| bl_cxx : forall n b, n_shape n = CXXBoolLiteralExpr b -> bool_literal n b
| bl_objc : forall n b, n_shape n = ObjCBoolLiteralExpr b -> bool_literal n b
| bl_cast : forall n k m z b, n_shape n = CStyleCastExpr k m -> n_shape m = IntegerLiteral z ->
    (b = true <-> z <> 0%Z) -> bool_literal n b.
(** The three kinds are told apart. *)
Definition same_kind (n m : node) : Prop :=
  (exists a b, n_shape n = CXXBoolLiteralExpr a /\ n_shape m = CXXBoolLiteralExpr b)
  \/ (exists a b, n_shape n = ObjCBoolLiteralExpr a /\ n_shape m = ObjCBoolLiteralExpr b)
  \/ (exists k k' a b, n_shape n = CStyleCastExpr k a /\ n_shape m = CStyleCastExpr k' b).
Definition opposite_literals (n m : node) : Prop :=
  same_kind n m /\ exists b, bool_literal n b /\ bool_literal m (negb b).
Definition equal_literals (n m : node) : Prop :=
  same_kind n m /\ exists b, bool_literal n b /\ bool_literal m b.

(** ** Conditional operators *)
(** C++ booleans stand bare as operands; the Objective-C ones within an implicit cast. *)
Inductive operand (R : node -> node -> Prop) : node -> node -> Prop :=
| op_bare : forall t f a b, n_shape t = CXXBoolLiteralExpr a -> n_shape f = CXXBoolLiteralExpr b -> R t f -> operand R t f
| op_cast : forall t f t' f', implicitly t t' -> implicitly f f' ->
    (forall b, n_shape t' <> CXXBoolLiteralExpr b) -> R t' f' -> operand R t f.
Inductive same_constant : node -> node -> Prop :=
| sc_bool : forall t f, operand equal_literals t f -> same_constant t f
| sc_int : forall t f z, n_shape t = IntegerLiteral z -> n_shape f = IntegerLiteral z -> same_constant t f
| sc_float : forall t f z, n_shape t = FloatingLiteral z -> n_shape f = FloatingLiteral z -> same_constant t f
| sc_char : forall t f z, n_shape t = CharacterLiteral z -> n_shape f = CharacterLiteral z -> same_constant t f
| sc_string : forall t f t' f' s, implicitly t t' -> implicitly f f' ->
    n_shape t' = StringLiteral s -> n_shape f' = StringLiteral s -> same_constant t f.
Definition same_variable (t f : node) : Prop :=
  exists t' f' d n e n' e', implicitly t t' /\ implicitly f f'
  /\ n_shape t' = DeclRefExpr d n e /\ n_shape f' = DeclRefExpr d n' e'.
Definition redundant_choice (n : node) : Prop :=
  exists c t f, n_shape n = ConditionalOperator c t f
  /\ (operand opposite_literals t f \/ same_constant t f \/ same_variable t f).

(** ** Redundant if *)
(** [m], or a block whose only statement is that, any number of times. *)
Inductive only_statement : node -> node -> Prop :=
| os_self : forall n, only_statement n n
| os_block : forall n m k, n_shape n = CompoundStmt [m] -> only_statement m k -> only_statement n k.
Definition returns (n v : node) : Prop := n_shape n = ReturnStmt (Some v).
Definition has_right_operand (n v : node) : Prop := exists o l, n_shape n = BinaryOperator o l v.
Definition redundant_if (n : node) : Prop :=
  exists p c t e, n_shape n = IfStmt p c t (Some e)
  /\ exists t' e' a b, only_statement t t' /\ only_statement e e' /\ opposite_literals a b
     /\ ((returns t' a /\ returns e' b) \/ (has_right_operand t' a /\ has_right_operand e' b)).

(** ** Redundant local variable *)
Definition names (d : node) (name : str) : Prop :=
  (exists v i, n_shape d = VarDecl v i /\ v_name v = name)
  \/ (exists f ps b, n_shape d = FunctionDecl f ps b /\ f_name f = name)
  \/ (exists r l i h p x bs, n_shape d = CXXRecordDecl r l /\ r_class r = CxxRecord i name h p x bs).
Definition refers (n : node) (d : nat) (name : str) : Prop := exists e, n_shape n = DeclRefExpr d name e.
(** The block ends with the declaration of [d] alone and a return of what bears its name. *)
Definition declared_then_returned (n d : node) : Prop :=
  exists l decl ret v e name r, n_shape n = CompoundStmt (l ++ [decl; ret])
  /\ n_shape decl = DeclStmt [d] /\ names d name
  /\ returns ret v /\ implicitly v e /\ refers e r name.

(** ** Unnecessary else *)
Inductive always_returns : node -> Prop :=
| ar_return : forall n v, n_shape n = ReturnStmt v -> always_returns n
| ar_block : forall n l m, n_shape n = CompoundStmt l -> In m l -> always_returns m -> always_returns n
| ar_if : forall n p c t e, n_shape n = IfStmt p c t (Some e) -> always_returns t -> always_returns e -> always_returns n.
Definition an_if (n : node) : Prop := exists p c t e, n_shape n = IfStmt p c t e.
(** [chain n ts e]: the if/else-if chain from [n] on has the branches [ts], then the else [e]. *)
Inductive chain : node -> list node -> node -> Prop :=
| ch_last : forall n p c t e, n_shape n = IfStmt p c t (Some e) -> ~ an_if e -> chain n [t] e
| ch_more : forall n p c t m ts e, n_shape n = IfStmt p c t (Some m) -> chain m ts e -> chain n (t :: ts) e.
(** The chain is no part of a longer one in these trees. *)
Definition starts_chain (roots : list node) (n : node) : Prop :=
  an_if n /\ forall root m p c t, In root roots -> below root m -> n_shape m <> IfStmt p c t (Some n).
Definition all_nodes (roots : list node) : list node := flat_map nodes roots.
(** No two nodes have the same address. *)
Definition distinct_nodes (roots : list node) : Prop := NoDup (map n_id (all_nodes roots)).
Definition else_unneeded (roots : list node) (n e : node) : Prop :=
  starts_chain roots n /\ exists ts, chain n ts e /\ Forall always_returns ts.
(** [without_else n n' e]: the chain [n] without its final else [e] is [n'].  Condition
    variables would go out of scope. *)
Inductive without_else : node -> node -> node -> Prop :=
| we_last : forall n n' c t e, n_shape n = IfStmt [] c t (Some e) -> ~ an_if e ->
    n_shape n' = IfStmt [] c t None -> without_else n n' e
| we_more : forall n n' c t m m' e, n_shape n = IfStmt [] c t (Some m) -> without_else m m' e ->
    n_shape n' = IfStmt [] c t (Some m') -> without_else n n' e.

(** ** Useless parentheses *)
(** Where parentheses are never needed: an if condition, a returned value, an initial value. *)
Inductive whole_expression : node -> node -> Prop :=
| we_cond : forall n p c t e, n_shape n = IfStmt p c t e -> whole_expression n c
| we_return : forall n v, n_shape n = ReturnStmt (Some v) -> whole_expression n v
| we_init : forall n vi v, n_shape n = VarDecl vi (Some v) -> whole_expression n v.
Definition useless_parentheses (n e : node) : Prop := whole_expression n e /\ exists x, n_shape e = ParenExpr x.

(** ** Null check before delete *)
Inductive casts : node -> castkind -> node -> Prop :=
| ca_implicit : forall n k m, n_shape n = ImplicitCastExpr k m -> casts n k m
| ca_style : forall n k m, n_shape n = CStyleCastExpr k m -> casts n k m
| ca_other : forall n k m, n_shape n = OtherCastExpr k m -> casts n k m.
(** Some cast on the way from [n] down makes a null pointer. *)
Inductive null_pointer : node -> Prop :=
| np_here : forall n m, casts n CK_NullToPointer m -> null_pointer n
| np_below : forall n k m, casts n k m -> null_pointer m -> null_pointer n.
(** What is left of an expression without its casts. *)
Inductive uncast : node -> node -> Prop :=
| un_done : forall n, (forall k m, ~ casts n k m) -> uncast n n
| un_cast : forall n k m e, casts n k m -> uncast m e -> uncast n e.
Definition binary (n : node) : Prop := exists o l r, n_shape n = BinaryOperator o l r.
(** The condition is [x != null], [null != x] or [x], with [e] being [x] less casts. *)
Inductive not_null_test : node -> node -> Prop :=
| nt_left : forall n l r e, n_shape n = BinaryOperator BO_NE l r -> null_pointer l -> uncast r e -> not_null_test n e
| nt_right : forall n l r e, n_shape n = BinaryOperator BO_NE l r -> ~ null_pointer l -> null_pointer r -> uncast l e ->
    not_null_test n e
| nt_plain : forall n e, ~ binary n -> uncast n e -> not_null_test n e.
Section Same.
  Variable same : node -> node -> bool.
  Definition deletes (n e : node) : Prop := exists a a', n_shape n = CXXDeleteExpr a /\ uncast a a' /\ same a' e = true.
  Definition assigns_null (n e : node) : Prop :=
    exists l r l', n_shape n = BinaryOperator BO_Assign l r /\ null_pointer r /\ uncast l l' /\ same l' e = true.
  Definition guarded_delete (n : node) : Prop :=
    exists p c t e, n_shape n = IfStmt p c t None /\ not_null_test c e
    /\ (deletes t e \/ (exists d, n_shape t = CompoundStmt [d] /\ deletes d e)
        \/ (exists d z, n_shape t = CompoundStmt [d; z] /\ deletes d e /\ assigns_null z e)).
End Same.
