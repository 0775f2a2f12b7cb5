(** * What it means to follow the advice of the rules, anywhere in a function body *)
From Verif Require Import Base ModelAST ModelRules ModelRulesBasic ModelRulesConvention ModelRulesRedundant SpecAST SpecExec
  SpecRulesBasic SpecRulesConvention SpecRulesRedundant.

(** ** Changing parts of a statement *)
Section Changed.
  (** The changes made: to expressions, to statements. *)
  Variables expr_change stmt_change : node -> node -> Prop.

  (** Expressions that differ by such changes in operands that are evaluated for their truth. *)
  Inductive changed_expr : node -> node -> Prop :=
  | ce_same : forall n, changed_expr n n
  | ce_here : forall n n', expr_change n n' -> changed_expr n n'
  | ce_and : forall n n' l l' r r', n_shape n = BinaryOperator BO_LAnd l r -> n_shape n' = BinaryOperator BO_LAnd l' r' ->
      changed_expr l l' -> changed_expr r r' -> changed_expr n n'
  | ce_or : forall n n' l l' r r', n_shape n = BinaryOperator BO_LOr l r -> n_shape n' = BinaryOperator BO_LOr l' r' ->
      changed_expr l l' -> changed_expr r r' -> changed_expr n n'
  | ce_not : forall n n' e e', n_shape n = UnaryOperator UO_LNot e -> n_shape n' = UnaryOperator UO_LNot e' ->
      changed_expr e e' -> changed_expr n n'
  | ce_paren : forall n n' e e', n_shape n = ParenExpr e -> n_shape n' = ParenExpr e' ->
      changed_expr e e' -> changed_expr n n'
  | ce_choice : forall n n' c c' t t' f f', n_shape n = ConditionalOperator c t f -> n_shape n' = ConditionalOperator c' t' f' ->
      changed_expr c c' -> changed_expr t t' -> changed_expr f f' -> changed_expr n n'
  | ce_throw : forall n n' e e', n_shape n = CXXThrowExpr (Some e) -> n_shape n' = CXXThrowExpr (Some e') ->
      changed_expr e e' -> changed_expr n n'.
  Inductive changed_option : option node -> option node -> Prop :=
  | co_none : changed_option None None
  | co_some : forall e e', changed_expr e e' -> changed_option (Some e) (Some e').
  Inductive changed_exprs : list node -> list node -> Prop :=
  | cl_nil : changed_exprs [] []
  | cl_cons : forall e e' l l', changed_expr e e' -> changed_exprs l l' -> changed_exprs (e :: l) (e' :: l').

  (** Statements that differ by such changes, as deep inside as one likes. *)
  Inductive changed : node -> node -> Prop :=
  | cs_same : forall n, changed n n
  | cs_here : forall n n', stmt_change n n' -> changed n n'
  | cs_expr : forall n n', isExpr n = true -> isExpr n' = true -> changed_expr n n' -> changed n n'
  | cs_return : forall n n' e e', n_shape n = ReturnStmt (Some e) -> n_shape n' = ReturnStmt (Some e') ->
      changed_expr e e' -> changed n n'
  | cs_block : forall n n' l l', n_shape n = CompoundStmt l -> n_shape n' = CompoundStmt l' ->
      changed_list l l' -> changed n n'
  | cs_if : forall n n' p c c' t t' e e', n_shape n = IfStmt p c t e -> n_shape n' = IfStmt p c' t' e' ->
      changed_expr c c' -> changed t t' -> changed_else e e' -> changed n n'
  | cs_loop : forall n n' L L', loop_of n = Some L -> loop_of n' = Some L' ->
      lp_setup L' = lp_setup L -> lp_pre L' = lp_pre L -> lp_bodyFirst L' = lp_bodyFirst L ->
      changed_option (lp_test L) (lp_test L') -> changed_exprs (lp_step L) (lp_step L') ->
      changed (lp_body L) (lp_body L') -> changed n n'
  | cs_switch : forall n n' p c c' b b' x, n_shape n = SwitchStmt p c b x -> n_shape n' = SwitchStmt p c' b' x ->
      n_id n' = n_id n -> changed_expr c c' -> changed b b' -> changed n n'
  | cs_case : forall n n' v s s', n_shape n = CaseStmt v s -> n_shape n' = CaseStmt v s' -> n_id n' = n_id n ->
      changed s s' -> changed n n'
  | cs_default : forall n n' s s', n_shape n = DefaultStmt s -> n_shape n' = DefaultStmt s' -> n_id n' = n_id n ->
      changed s s' -> changed n n'
  | cs_label : forall n n' l s s', n_shape n = LabelStmt l s -> n_shape n' = LabelStmt l s' -> changed s s' -> changed n n'
  | cs_try : forall n n' b b' hs hs', n_shape n = CXXTryStmt b hs -> n_shape n' = CXXTryStmt b' hs' ->
      changed b b' -> changed_list hs hs' -> changed n n'
  | cs_catch : forall n n' e b b', n_shape n = CXXCatchStmt e b -> n_shape n' = CXXCatchStmt e b' -> changed b b' -> changed n n'
  | cs_objc_try : forall n n' b b' hs hs' f f', n_shape n = ObjCAtTryStmt b hs f -> n_shape n' = ObjCAtTryStmt b' hs' f' ->
      changed b b' -> changed_list hs hs' -> changed_else f f' -> changed n n'
  | cs_objc_catch : forall n n' p b b', n_shape n = ObjCAtCatchStmt p b -> n_shape n' = ObjCAtCatchStmt p b' ->
      changed b b' -> changed n n'
  | cs_finally : forall n n' b b', n_shape n = ObjCAtFinallyStmt b -> n_shape n' = ObjCAtFinallyStmt b' ->
      changed b b' -> changed n n'
  | cs_synchronized : forall n n' e e' b b', n_shape n = ObjCAtSynchronizedStmt e b -> n_shape n' = ObjCAtSynchronizedStmt e' b' ->
      changed_expr e e' -> changed b b' -> changed n n'
  | cs_autorelease : forall n n' b b', n_shape n = ObjCAutoreleasePoolStmt b -> n_shape n' = ObjCAutoreleasePoolStmt b' ->
      changed b b' -> changed n n'
  with changed_list : list node -> list node -> Prop :=
  | cx_nil : changed_list [] []
  | cx_cons : forall n n' l l', changed n n' -> changed_list l l' -> changed_list (n :: l) (n' :: l')
  with changed_else : option node -> option node -> Prop :=
  | cz_none : changed_else None None
  | cz_some : forall n n', changed n n' -> changed_else (Some n) (Some n').
End Changed.

(** ** The advice *)
(** [lines], [limit]: what the early-exit rule measures and its limit; [evaluate]: the compiler's
    constant folding. *)
Section Advice.
  Variables (lines : node -> Z) (limit : Z) (evaluate : node -> option bool).

  (** Advice on expressions. *)
  Inductive expr_advice : node -> node -> Prop :=
  (** [!c ? t : f] is [c ? f : t] *)
  | ae_swap : forall n k c d t f, InvertedLogic_visit n = [Report c []] -> n_shape n = ConditionalOperator c t f ->
      n_shape c = UnaryOperator UO_LNot d -> n_shape k = ConditionalOperator d f t -> expr_advice n k
  (** [c ? true : false] is [c], [c ? false : true] is [!c] *)
  | ae_redundant : forall n k c t f b, RedundantConditional_visit n = [Report n []] -> n_shape n = ConditionalOperator c t f ->
      n_shape t = CXXBoolLiteralExpr b -> n_shape f = CXXBoolLiteralExpr (negb b) ->
      (if b then k = c else n_shape k = UnaryOperator UO_LNot c) -> expr_advice n k
  (** With a constant condition only one operand matters. *)
  | ae_constant : forall n c t f b, ConstantConditional_visit evaluate n = [Report c []] -> n_shape n = ConditionalOperator c t f ->
      evaluate c = Some b -> expr_advice n (if b then t else f).

  (** Advice on statements. *)
  Inductive stmt_advice : node -> node -> Prop :=
  (** [if (c) { if (d) t }] is [if (c && d) t] *)
  | ad_collapse : forall n m k p c d cd t t', CollapsibleIf_visit n = [Report n []] ->
      n_shape n = IfStmt p c t None -> t = m \/ n_shape t = CompoundStmt [m] -> n_shape m = IfStmt [] d t' None ->
      n_shape cd = BinaryOperator BO_LAnd c d -> n_shape k = IfStmt p cd t' None -> stmt_advice n k
  (** [for (; c; ) b] is [while (c) b] *)
  | ad_while : forall n k p c b, ForLoopShouldBeWhile_visit n = [Report n []] ->
      n_shape n = ForStmt None p (Some c) None b -> n_shape k = WhileStmt p c b -> stmt_advice n k
  (** [if (!c) t else e] is [if (c) e else t] *)
  | ad_swap : forall n k p c d t e, InvertedLogic_visit n = [Report c []] -> n_shape n = IfStmt p c t (Some e) ->
      n_shape c = UnaryOperator UO_LNot d -> n_shape k = IfStmt p d e (Some t) -> stmt_advice n k
  (** [if (l != r) t else e] is [if (l == r) e else t] *)
  | ad_unequal : forall n k p c d l r t e, InvertedLogic_visit n = [Report c []] -> n_shape n = IfStmt p c t (Some e) ->
      n_shape c = BinaryOperator BO_NE l r -> n_shape d = BinaryOperator BO_EQ l r -> n_shape k = IfStmt p d e (Some t) ->
      stmt_advice n k
  (** In a loop body, [… if (c) t] at the end is [… if (!c) continue; t] *)
  | ad_continue : forall n n' L L' l m c d t k j msg, PreferEarlyExit_visit lines limit n = [Report m msg] ->
      loop_of n = Some L -> n_shape (lp_body L) = CompoundStmt (l ++ [m]) -> n_shape m = IfStmt [] c t None ->
      loop_of n' = Some L' -> lp_setup L' = lp_setup L -> lp_pre L' = lp_pre L -> lp_test L' = lp_test L ->
      lp_step L' = lp_step L -> lp_bodyFirst L' = lp_bodyFirst L -> n_shape (lp_body L') = CompoundStmt (l ++ [k; t]) ->
      n_shape k = IfStmt [] d j None -> n_shape d = UnaryOperator UO_LNot c -> n_shape j = ContinueStmt -> stmt_advice n n'
  (** [… if (c) t; j] with a jump [j] is [… if (!c) j; t; j] *)
  | ad_jump : forall b b' l m c d t k j msg, PreferEarlyExit_visit lines limit b = [Report m msg] ->
      n_shape b = CompoundStmt (l ++ [m; j]) -> n_shape m = IfStmt [] c t None -> interrupts j ->
      n_shape b' = CompoundStmt (l ++ [k; t; j]) -> n_shape k = IfStmt [] d j None -> n_shape d = UnaryOperator UO_LNot c ->
      stmt_advice b b'
  (** A continue that ends a loop body can go. *)
  | ad_last_continue : forall n n' L L' l j z, AvoidBranching_visit n = [Report j []] -> n_shape j = ContinueStmt ->
      loop_of n = Some L -> n_shape (lp_body L) = CompoundStmt (l ++ [j]) ->
      loop_of n' = Some L' -> lp_setup L' = lp_setup L -> lp_pre L' = lp_pre L -> lp_test L' = lp_test L ->
      lp_step L' = lp_step L -> lp_bodyFirst L' = lp_bodyFirst L -> n_shape (lp_body L') = CompoundStmt (l ++ [z]) ->
      n_shape z = NullStmt -> stmt_advice n n'
  (** The else behind branches that all return can stand behind the if, unless they have labels. *)
  | ad_else : forall roots b b' l r n n' e, else_unneeded roots n e -> In (Report e []) (UnnecessaryElseRule roots) ->
      (forall ts t en, chain n ts e -> In t ts -> ~ inside en t) -> without_else n n' e ->
      n_shape b = CompoundStmt (l ++ n :: r) -> n_shape b' = CompoundStmt (l ++ n' :: e :: r) -> stmt_advice b b'
  (** Dead code without labels can go, if the statement before it has no label other than case
      labels at its start. *)
  | ad_dead : forall b b' l p r q, DeadCode_visit b = [Report r []] -> n_shape b = CompoundStmt (l ++ p :: r :: q) ->
      NoDup (l ++ p :: r :: q) -> own_labels_only p -> (forall en, ~ inside en r) ->
      n_shape b' = CompoundStmt (l ++ p :: q) -> stmt_advice b b'
  (** Parentheses around a condition or a returned value can go. *)
  | ad_parens_if : forall n k p c x t e, UselessParentheses_visit n = [Report c []] -> n_shape n = IfStmt p c t e ->
      n_shape c = ParenExpr x -> n_shape k = IfStmt p x t e -> stmt_advice n k
  | ad_parens_return : forall n k v x, UselessParentheses_visit n = [Report v []] -> n_shape n = ReturnStmt (Some v) ->
      n_shape v = ParenExpr x -> n_shape k = ReturnStmt (Some x) -> stmt_advice n k
  (** [if (c) return true; else return false;] is [return c;], the opposite [return !c;] *)
  | ad_redundant_if : forall n k c t e t' e' x y b v, RedundantIf_visit n = [Report n []] -> n_shape n = IfStmt [] c t (Some e) ->
      only_statement t t' -> only_statement e e' -> n_shape t' = ReturnStmt (Some x) -> n_shape e' = ReturnStmt (Some y) ->
      n_shape x = CXXBoolLiteralExpr b -> n_shape y = CXXBoolLiteralExpr (negb b) ->
      n_shape k = ReturnStmt (Some v) -> (if b then v = c else n_shape v = UnaryOperator UO_LNot c) -> stmt_advice n k
  (** Empty branches and blocks can go. *)
  | ad_empty_if : forall n c t, EmptyIf_visit n = [Report t []] -> n_shape n = IfStmt [] c t None -> isExpr c = true ->
      stmt_advice n c
  | ad_empty_else : forall n k p c t e, EmptyElse_visit n = [Report e []] -> n_shape n = IfStmt p c t (Some e) ->
      n_shape k = IfStmt p c t None -> stmt_advice n k
  | ad_empty_try : forall n k b hs, EmptyTry_visit n = [Report b []] -> n_shape n = CXXTryStmt b hs -> n_shape k = NullStmt ->
      stmt_advice n k
  | ad_empty_finally : forall n k b hs f fb, EmptyFinally_visit f = [Report fb []] -> n_shape n = ObjCAtTryStmt b hs (Some f) ->
      n_shape f = ObjCAtFinallyStmt fb -> n_shape k = ObjCAtTryStmt b hs None -> stmt_advice n k
  (** With a constant condition only one branch matters; the other must not have labels. *)
  | ad_constant_then : forall n c t e, ConstantIf_visit evaluate n = [Report c []] -> n_shape n = IfStmt [] c t e ->
      evaluate c = Some true -> (forall m en, e = Some m -> ~ inside en m) -> stmt_advice n t
  | ad_constant_else : forall n c t e, ConstantIf_visit evaluate n = [Report c []] -> n_shape n = IfStmt [] c t (Some e) ->
      evaluate c = Some false -> (forall en, ~ inside en t) -> stmt_advice n e
  | ad_constant_none : forall n c t k, ConstantIf_visit evaluate n = [Report c []] -> n_shape n = IfStmt [] c t None ->
      evaluate c = Some false -> (forall en, ~ inside en t) -> n_shape k = NullStmt -> stmt_advice n k.

  (** Following advice: any amount of it at a time, anywhere, time and again. *)
  Inductive follows : node -> node -> Prop :=
  | fo_done : forall n, follows n n
  | fo_step : forall n m k, changed expr_advice stmt_advice n m -> follows m k -> follows n k.
End Advice.

(** ** Ordinary meanings of expressions *)
(** Literals are what they say, [!=] is the opposite of [==], the compiler folds correctly, and
    what a switch selects depends on the switch and the state. *)
Definition folds {st} (atom : node -> st -> value -> st -> Prop) (evaluate : node -> option bool) : Prop :=
  forall c b s v s', evaluate c = Some b -> (eval atom c s v s' <-> (v = Truth b \/ v = Fails ACut) /\ s' = s).
Record ordinary {st} (atom : node -> st -> value -> st -> Prop) (select : node -> st -> option nat -> st -> Prop)
    (evaluate : node -> option bool) : Prop := {
  or_literals : forall e b s v s', n_shape e = CXXBoolLiteralExpr b -> (atom e s v s' <-> v = Truth b /\ s' = s);
  or_unequal : forall c d l r s v s', n_shape c = BinaryOperator BO_NE l r -> n_shape d = BinaryOperator BO_EQ l r ->
    (atom c s v s' <-> atom d s (match v with Truth b => Truth (negb b) | Fails a => Fails a end) s');
  or_folds : folds atom evaluate;
  or_select : forall n n' s i s', n_id n = n_id n' -> (select n s i s' <-> select n' s i s') }.

(** A call of the function with this body can end this way. *)
Definition ends {st} (atom : node -> st -> value -> st -> Prop) select (body : node) (s : st) (o : out) (s' : st) : Prop :=
  o <> Abrupt ACut /\ exists t, run atom select body Start s t o s'.
