(** * Specification vocabulary for the rules on empty blocks and the basic rules *)
From Verif Require Import Base ModelAST ModelRules ModelRulesBasic SpecFilter SpecAST SpecRules SpecExec.

(** ** Empty blocks *)
Definition lone_semicolon_or_empty_block (n : node) : Prop :=
  n_shape n = NullStmt \/ n_shape n = CompoundStmt [].
Inductive construct := KIf | KElse | KWhile | KDo | KFor | KSwitch | KTry | KCatch | KFinally.
(** [body_of k n b]: [b] is the body in [n] that the rule for construct [k] is about. *)
Inductive body_of : construct -> node -> node -> Prop :=
| bo_if : forall n p c t e, n_shape n = IfStmt p c t e -> body_of KIf n t
| bo_else : forall n p c t e, n_shape n = IfStmt p c t (Some e) -> body_of KElse n e
| bo_while : forall n p c b, n_shape n = WhileStmt p c b -> body_of KWhile n b
| bo_do : forall n b c, n_shape n = DoStmt b c -> body_of KDo n b
| bo_for : forall n i p c s b, n_shape n = ForStmt i p c s b -> body_of KFor n b
| bo_forin : forall n e c b, n_shape n = ObjCForCollectionStmt e c b -> body_of KFor n b
| bo_switch : forall n p c b x, n_shape n = SwitchStmt p c b x -> body_of KSwitch n b
| bo_try : forall n b hs, n_shape n = CXXTryStmt b hs -> body_of KTry n b
| bo_objc_try : forall n b hs f, n_shape n = ObjCAtTryStmt b hs f -> body_of KTry n b
| bo_catch : forall n e b, n_shape n = CXXCatchStmt e b -> body_of KCatch n b
| bo_objc_catch : forall n p b, n_shape n = ObjCAtCatchStmt p b -> body_of KCatch n b
| bo_finally : forall n b, n_shape n = ObjCAtFinallyStmt b -> body_of KFinally n b.

Definition empty_rule (k : construct) : node -> list report :=
  match k with
  | KIf => EmptyIf_visit | KElse => EmptyElse_visit | KWhile => EmptyWhile_visit | KDo => EmptyDoWhile_visit
  | KFor => EmptyFor_visit | KSwitch => EmptySwitch_visit | KTry => EmptyTry_visit | KCatch => EmptyCatch_visit
  | KFinally => EmptyFinally_visit
  end.

(** The reports of a rule that reports, per node where [R n m] holds, the node [m]. *)
Definition reports_related (R : node -> node -> Prop) (root : node) (rs : list report) : Prop :=
  exists sel, sublist_where (fun n => exists m, R n m) (nodes root) sel
    /\ Forall2 (fun n r => exists m, R n m /\ r = Report m []) sel rs.

(** ** Collapsible if *)
(** [n] is an if without else whose then branch is, directly or as only statement of a block,
    the if [m] without else. *)
Definition only_inner_if (n m : node) : Prop :=
  exists p c t, n_shape n = IfStmt p c t None
    /\ (t = m \/ n_shape t = CompoundStmt [m])
    /\ exists p' c' t', n_shape m = IfStmt p' c' t' None.

(** ** Dead code *)
Definition jump_statement (n : node) : Prop :=
  n_shape n = BreakStmt \/ n_shape n = ContinueStmt \/ (exists v, n_shape n = ReturnStmt v)
  \/ (exists l, n_shape n = GotoStmt l) \/ (exists e, n_shape n = CXXThrowExpr e)
  \/ (exists e, n_shape n = ObjCAtThrowStmt e).
Inductive always_jumps : node -> Prop :=
| aj_jump : forall n, jump_statement n -> always_jumps n
| aj_case : forall n v m, n_shape n = CaseStmt v m -> always_jumps m -> always_jumps n
| aj_default : forall n m, n_shape n = DefaultStmt m -> always_jumps m -> always_jumps n
| aj_block : forall n l m, n_shape n = CompoundStmt l -> In m l -> always_jumps m -> always_jumps n
| aj_if : forall n p c t e, n_shape n = IfStmt p c t (Some e) -> always_jumps t -> always_jumps e -> always_jumps n.
Definition labelled_statement (n : node) : Prop :=
  (exists v m, n_shape n = CaseStmt v m) \/ (exists m, n_shape n = DefaultStmt m)
  \/ (exists l m, n_shape n = LabelStmt l m).
(** The statement contains no label besides case labels it starts with. *)
Inductive own_labels_only : node -> Prop :=
| ol_none : forall n, (forall en, ~ inside en n) -> own_labels_only n
| ol_case : forall n v m, n_shape n = CaseStmt v m -> own_labels_only m -> own_labels_only n
| ol_default : forall n m, n_shape n = DefaultStmt m -> own_labels_only m -> own_labels_only n.
(** Statement [S i] of [l] follows a statement that always jumps and bears no label. *)
Definition follows_jump (l : list node) (i : nat) (p r : node) : Prop :=
  nth_error l i = Some p /\ nth_error l (S i) = Some r /\ always_jumps p /\ ~ labelled_statement r.

(** ** Negations *)
(** [e] within any number of parentheses. *)
Inductive parenthesised : node -> node -> Prop :=
| pa_self : forall e, parenthesised e e
| pa_paren : forall n m e, n_shape n = ParenExpr m -> parenthesised m e -> parenthesised n e.
Definition unary_of_unary (ok : unop -> unop -> Prop) (n : node) : Prop :=
  exists o sub i e, n_shape n = UnaryOperator o sub /\ parenthesised sub e
    /\ (exists x, n_shape e = UnaryOperator i x) /\ ok o i.
Definition same_negation (o i : unop) : Prop := o = i /\ (o = UO_LNot \/ o = UO_Not).
Definition sign_or_negation (o : unop) : Prop := o = UO_LNot \/ o = UO_Not \/ o = UO_Plus \/ o = UO_Minus.

(** ** Others *)
Definition int_literal (n : node) (v : Z) : Prop := n_shape n = IntegerLiteral v.
(** [n] reads [e % 2 == 1] or [1 == e % 2]. *)
Definition oddness_check (n : node) : Prop :=
  exists l r, n_shape n = BinaryOperator BO_EQ l r
  /\ ((int_literal r 1 /\ exists e two, n_shape l = BinaryOperator BO_Rem e two /\ int_literal two 2)
      \/ (int_literal l 1 /\ exists e two, n_shape r = BinaryOperator BO_Rem e two /\ int_literal two 2)).
Definition bitwise_operator (n : node) : Prop :=
  exists o l r, n_shape n = BinaryOperator o l r /\ (o = BO_And \/ o = BO_Or \/ o = BO_Xor).
(** The condition of an if, a while or do loop, or a conditional operator. *)
Inductive condition_of : node -> node -> Prop :=
| co_if : forall n p c t e, n_shape n = IfStmt p c t e -> condition_of n c
| co_while : forall n p c b, n_shape n = WhileStmt p c b -> condition_of n c
| co_do : forall n b c, n_shape n = DoStmt b c -> condition_of n c
| co_choice : forall n c t f, n_shape n = ConditionalOperator c t f -> condition_of n c.
Definition while_like (n : node) : Prop := exists p c b, n_shape n = ForStmt None p (Some c) None b /\ n_shape c <> NullStmt.
(** An outer for loop declares one variable; the only inner for loop steps it. *)
Definition jumbled (n inc : node) : Prop :=
  exists i p c s b d vi ini, n_shape n = ForStmt (Some i) p c s b
  /\ n_shape i = DeclStmt [d] /\ n_shape d = VarDecl vi ini
  /\ exists f i' p' c' b', (b = f \/ n_shape b = CompoundStmt [f])
     /\ n_shape f = ForStmt i' p' c' (Some inc) b'
     /\ exists o e name en, n_shape inc = UnaryOperator o e /\ n_shape e = DeclRefExpr (n_id d) name en.
Definition is_finally (n : node) : Prop := exists b, n_shape n = ObjCAtFinallyStmt b.
Definition is_return (n : node) : Prop := exists v, n_shape n = ReturnStmt v.
Definition is_objc_throw (n : node) : Prop := exists v, n_shape n = ObjCAtThrowStmt v.
(** A message raising an NSException. *)
Definition raises (n : node) : Prop :=
  exists m r args, n_shape n = ObjCMessageExpr m r args /\ ms_interface m = Some $"NSException"
  /\ In (ms_selector m) [$"raise"; $"raise:format:"; $"raise:format:arguments:"].
(** Per block the first statement without label that follows a statement always jumping away. *)
Definition first_after_jump (block r : node) : Prop :=
  exists l i p, n_shape block = CompoundStmt l /\ follows_jump l i p r
    /\ forall j q x, j < i -> ~ follows_jump l j q x.
