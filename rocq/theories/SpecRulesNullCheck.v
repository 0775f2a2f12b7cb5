(** * Specification vocabulary for the null check rules *)
From Verif Require Import Base ModelAST ModelRules SpecFilter SpecAST SpecRules SpecExec SpecRulesBasic.

(** [n] reads the variable [name]: a reference within an implicit cast, perhaps turned into a
    truth value. *)
Inductive reads : node -> str -> Prop :=
| rd_ref : forall n k m d name e, n_shape n = ImplicitCastExpr k m -> k <> CK_PointerToBoolean ->
    n_shape m = DeclRefExpr d name e -> reads n name
| rd_truth : forall n m name, n_shape n = ImplicitCastExpr CK_PointerToBoolean m -> reads m name -> reads n name.
(** A null pointer constant: nullptr, NULL, nil or 0, the latter ones perhaps cast. *)
Inductive null_constant : node -> Prop :=
| nc_plain : forall n m, n_shape n = ImplicitCastExpr CK_NullToPointer m -> null_constant n
| nc_cast : forall n m e x, n_shape n = ImplicitCastExpr CK_BitCast m -> parenthesised m e ->
    n_shape e = CStyleCastExpr CK_NullToPointer x -> null_constant n.
(** [n] compares the variable with a null pointer constant, on either side. *)
Definition compares (op : binop) (n : node) (name : str) : Prop :=
  exists l r, n_shape n = BinaryOperator op l r
  /\ ((null_constant l /\ ~ null_constant r /\ reads r name) \/ (null_constant r /\ ~ null_constant l /\ reads l name)).
(** The variable itself as a condition: [p]. *)
Definition as_condition (n : node) (name : str) : Prop :=
  reads n name /\ ((exists m, n_shape n = ImplicitCastExpr CK_PointerToBoolean m)
                   \/ exists m, n_shape n = ImplicitCastExpr CK_LValueToRValue m).
Inductive tests_null : node -> str -> Prop :=        (* p == NULL, NULL == p, !p *)
| tn_compare : forall n name, compares BO_EQ n name -> tests_null n name
| tn_not : forall n m name, n_shape n = UnaryOperator UO_LNot m -> as_condition m name -> tests_null n name.
Inductive tests_not_null : node -> str -> Prop :=    (* p != NULL, NULL != p, p *)
| tt_compare : forall n name, compares BO_NE n name -> tests_not_null n name
| tt_plain : forall n name, as_condition n name -> tests_not_null n name.

(** How a variable is used: p->member, or [p message]. *)
Inductive use := UMember | UMessage.
Definition uses (u : use) (n : node) (name : str) : Prop :=
  exists m, below n m /\ match u with
  | UMember => exists b, n_shape m = MemberExpr true b /\ reads b name
  | UMessage => exists i r args, n_shape m = ObjCMessageExpr i (Some r) args /\ reads r name
  end.

(** The check comes first, and only a null pointer gets to the use. *)
Definition broken_check (u : use) (n : node) : Prop :=
  exists op l r name, n_shape n = BinaryOperator op l r /\ name <> [] /\ uses u r name
  /\ ((op = BO_LOr /\ tests_not_null l name) \/ (op = BO_LAnd /\ tests_null l name)).
(** The use comes first, the check afterwards. *)
Definition misplaced_check (u : use) (n : node) : Prop :=
  exists op l r name, n_shape n = BinaryOperator op l r /\ name <> [] /\ uses u l name
  /\ ((op = BO_LAnd /\ tests_not_null r name) \/ (op = BO_LOr /\ tests_null r name)).
(** [p && ... [p m] ...], the right side not being a negation. *)
Definition redundant_nil_check (n : node) : Prop :=
  exists l r name, n_shape n = BinaryOperator BO_LAnd l r /\ name <> [] /\ tests_not_null l name
  /\ uses UMessage r name /\ forall e, n_shape r <> UnaryOperator UO_LNot e.
