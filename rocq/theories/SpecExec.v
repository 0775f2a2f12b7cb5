(** * A semantics of statements, to say what rule advice means for behaviour.
    It is independent of the rules.  What an atomic expression or declaration does is a
    parameter; jumps, conditions, blocks, loops, switches and exception handlers are defined. *)
From Verif Require Import Base ModelAST SpecAST.

(** How a statement can fail to complete: a jump, an exception, or a run that is cut (so that
    runs that never end are covered by their beginnings). *)
Inductive abrupt := ABreak | AContinue | AReturn (value : option bool) | AThrow | AGoto (label : str) | ACut.
Inductive out := Normal | Abrupt (a : abrupt).
(** Where control enters a statement: at its start, at a label inside, at a case label inside. *)
Inductive entry := Start | AtLabel (label : str) | AtCase (id : nat).
(** An expression yields a truth value or fails to complete. *)
Inductive value := Truth (b : bool) | Fails (a : abrupt).
Definition out_of (v : value) : out := match v with Truth _ => Normal | Fails a => Abrupt a end.

(** The statements directly inside a statement which a jump may enter. *)
Definition enterable (n : node) : list node :=
  match n_shape n with
  | CompoundStmt l => l
  | IfStmt _ _ t e => t :: opt e
  | WhileStmt _ _ b | DoStmt b _ | ForStmt _ _ _ _ b | CXXForRangeStmt _ _ _ b
  | ObjCForCollectionStmt _ _ b | SwitchStmt _ _ b _ => [b]
  | CaseStmt _ s | DefaultStmt s | LabelStmt _ s => [s]
  | _ => []
  end.
Definition is_switch (n : node) : Prop := exists p c b x, n_shape n = SwitchStmt p c b x.
(** [inside en n]: the jump target [en] is in [n].  Case labels belong to the innermost switch. *)
Inductive inside : entry -> node -> Prop :=
| in_label : forall n l s, n_shape n = LabelStmt l s -> inside (AtLabel l) n
| in_case : forall n v s, n_shape n = CaseStmt v s -> inside (AtCase (n_id n)) n
| in_default : forall n s, n_shape n = DefaultStmt s -> inside (AtCase (n_id n)) n
| in_sub : forall en n m, In m (enterable n) -> (forall i, en = AtCase i -> ~ is_switch n) ->
    inside en m -> inside en n.

(** Loops: evaluated once; then per round a test (none: true), the body, and a step. *)
Record loopparts := { lp_setup : list node; lp_pre : list node; lp_test : option node; lp_step : list node;
                      lp_body : node; lp_bodyFirst : bool }.
Definition loop_of (n : node) : option loopparts :=
  match n_shape n with
  | WhileStmt pre c b => Some {| lp_setup := []; lp_pre := pre; lp_test := Some c; lp_step := []; lp_body := b; lp_bodyFirst := false |}
  | DoStmt b c => Some {| lp_setup := []; lp_pre := []; lp_test := Some c; lp_step := []; lp_body := b; lp_bodyFirst := true |}
  | ForStmt i pre c inc b => Some {| lp_setup := opt i; lp_pre := pre; lp_test := c; lp_step := opt inc; lp_body := b; lp_bodyFirst := false |}
  | CXXForRangeStmt i v r b => Some {| lp_setup := opt i ++ [r]; lp_pre := []; lp_test := Some v; lp_step := []; lp_body := b; lp_bodyFirst := false |}
  | ObjCForCollectionStmt e c b => Some {| lp_setup := [c]; lp_pre := []; lp_test := Some e; lp_step := []; lp_body := b; lp_bodyFirst := false |}
  | _ => None
  end.
Inductive phase := PTest | PBody (en : entry) | PStep.

(** Expressions with their own control flow. *)
Definition structured (n : node) : Prop :=
  match n_shape n with
  | BinaryOperator BO_LAnd _ _ | BinaryOperator BO_LOr _ _ | UnaryOperator UO_LNot _ | ParenExpr _
  | ConditionalOperator _ _ _ | CXXThrowExpr _ => True
  | _ => False
  end.
Definition caught (o : out) : Prop := o = Abrupt AThrow.
Definition unbroken (o : out) : out := match o with Abrupt ABreak => Normal | _ => o end.

Section Exec.
  Context {st : Type}.
  (** What an atomic expression, a declaration or an unmodelled statement does. *)
  Variable atom : node -> st -> value -> st -> Prop.
  (** What the head of a switch selects: a case label, or none. *)
  Variable select : node -> st -> option nat -> st -> Prop.

  Inductive eval : node -> st -> value -> st -> Prop :=
  | ev_atom : forall n s v s', ~ structured n -> atom n s v s' -> eval n s v s'
  | ev_cut : forall n s, eval n s (Fails ACut) s
  | ev_and_left : forall n l r s v s', n_shape n = BinaryOperator BO_LAnd l r ->
      eval l s v s' -> v <> Truth true -> eval n s v s'
  | ev_and_right : forall n l r s s1 v s', n_shape n = BinaryOperator BO_LAnd l r ->
      eval l s (Truth true) s1 -> eval r s1 v s' -> eval n s v s'
  | ev_or_left : forall n l r s v s', n_shape n = BinaryOperator BO_LOr l r ->
      eval l s v s' -> v <> Truth false -> eval n s v s'
  | ev_or_right : forall n l r s s1 v s', n_shape n = BinaryOperator BO_LOr l r ->
      eval l s (Truth false) s1 -> eval r s1 v s' -> eval n s v s'
  | ev_not : forall n e s b s', n_shape n = UnaryOperator UO_LNot e ->
      eval e s (Truth b) s' -> eval n s (Truth (negb b)) s'
  | ev_not_fails : forall n e s a s', n_shape n = UnaryOperator UO_LNot e ->
      eval e s (Fails a) s' -> eval n s (Fails a) s'
  | ev_paren : forall n e s v s', n_shape n = ParenExpr e -> eval e s v s' -> eval n s v s'
  | ev_choice : forall n c t f s b s1 v s', n_shape n = ConditionalOperator c t f ->
      eval c s (Truth b) s1 -> eval (if b then t else f) s1 v s' -> eval n s v s'
  | ev_choice_fails : forall n c t f s a s', n_shape n = ConditionalOperator c t f ->
      eval c s (Fails a) s' -> eval n s (Fails a) s'
  | ev_rethrow : forall n s, n_shape n = CXXThrowExpr None -> eval n s (Fails AThrow) s
  | ev_throw : forall n e s b s', n_shape n = CXXThrowExpr (Some e) ->
      eval e s (Truth b) s' -> eval n s (Fails AThrow) s'
  | ev_throw_fails : forall n e s a s', n_shape n = CXXThrowExpr (Some e) ->
      eval e s (Fails a) s' -> eval n s (Fails a) s'.

  (** Several in order; the value is that of the last. *)
  Inductive evals : list node -> st -> value -> st -> Prop :=
  | es_nil : forall s, evals [] s (Truth true) s
  | es_cons : forall n l s b s1 v s', eval n s (Truth b) s1 -> evals l s1 v s' -> evals (n :: l) s v s'
  | es_fails : forall n l s a s', eval n s (Fails a) s' -> evals (n :: l) s (Fails a) s'.
  (** The head of an if or a loop: condition variables, then the condition if any. *)
  Inductive head : list node -> option node -> st -> value -> st -> Prop :=
  | hd_fails : forall pre c s a s', evals pre s (Fails a) s' -> head pre c s (Fails a) s'
  | hd_none : forall pre s b s', evals pre s (Truth b) s' -> head pre None s (Truth true) s'
  | hd_cond : forall pre c s b s1 v s', evals pre s (Truth b) s1 -> eval c s1 v s' ->
      head pre (Some c) s v s'.

  (** [(block, i)]: control arrived at statement [i] of [block]. *)
  Definition event := (node * nat)%type.

  Inductive exec : node -> entry -> st -> list event -> out -> st -> Prop :=
  | x_cut : forall n en s, exec n en s [] (Abrupt ACut) s
  | x_null : forall n s, n_shape n = NullStmt -> exec n Start s [] Normal s
  | x_break : forall n s, n_shape n = BreakStmt -> exec n Start s [] (Abrupt ABreak) s
  | x_continue : forall n s, n_shape n = ContinueStmt -> exec n Start s [] (Abrupt AContinue) s
  | x_goto : forall n l s, n_shape n = GotoStmt l -> exec n Start s [] (Abrupt (AGoto l)) s
  | x_goto_computed : forall n e s b s' l, n_shape n = IndirectGotoStmt e -> eval e s (Truth b) s' ->
      exec n Start s [] (Abrupt (AGoto l)) s'
  | x_goto_fails : forall n e s a s', n_shape n = IndirectGotoStmt e -> eval e s (Fails a) s' ->
      exec n Start s [] (Abrupt a) s'
  | x_return : forall n s, n_shape n = ReturnStmt None -> exec n Start s [] (Abrupt (AReturn None)) s
  | x_return_value : forall n e s b s', n_shape n = ReturnStmt (Some e) -> eval e s (Truth b) s' ->
      exec n Start s [] (Abrupt (AReturn (Some b))) s'
  | x_return_fails : forall n e s a s', n_shape n = ReturnStmt (Some e) -> eval e s (Fails a) s' ->
      exec n Start s [] (Abrupt a) s'
  | x_objc_rethrow : forall n s, n_shape n = ObjCAtThrowStmt None -> exec n Start s [] (Abrupt AThrow) s
  | x_objc_throw : forall n e s b s', n_shape n = ObjCAtThrowStmt (Some e) -> eval e s (Truth b) s' ->
      exec n Start s [] (Abrupt AThrow) s'
  | x_objc_throw_fails : forall n e s a s', n_shape n = ObjCAtThrowStmt (Some e) -> eval e s (Fails a) s' ->
      exec n Start s [] (Abrupt a) s'
  | x_expr : forall n s v s', isExpr n = true -> eval n s v s' -> exec n Start s [] (out_of v) s'
  | x_decl : forall n ds s v s', n_shape n = DeclStmt ds -> atom n s v s' -> exec n Start s [] (out_of v) s'
  | x_other : forall n l s v s', n_shape n = OtherStmt l -> atom n s v s' -> exec n Start s [] (out_of v) s'
  | x_compound : forall n l en s t o s', n_shape n = CompoundStmt l ->
      execs n 0 l en s t o s' -> exec n en s t o s'
  | x_label : forall n l m s t o s', n_shape n = LabelStmt l m -> exec m Start s t o s' -> exec n Start s t o s'
  | x_label_here : forall n l m s t o s', n_shape n = LabelStmt l m -> exec m Start s t o s' ->
      exec n (AtLabel l) s t o s'
  | x_label_sub : forall n l m en s t o s', n_shape n = LabelStmt l m -> inside en m -> exec m en s t o s' ->
      exec n en s t o s'
  | x_case : forall n v m s t o s', n_shape n = CaseStmt v m -> exec m Start s t o s' -> exec n Start s t o s'
  | x_case_here : forall n v m s t o s', n_shape n = CaseStmt v m -> exec m Start s t o s' ->
      exec n (AtCase (n_id n)) s t o s'
  | x_case_sub : forall n v m en s t o s', n_shape n = CaseStmt v m -> inside en m -> exec m en s t o s' ->
      exec n en s t o s'
  | x_default : forall n m s t o s', n_shape n = DefaultStmt m -> exec m Start s t o s' -> exec n Start s t o s'
  | x_default_here : forall n m s t o s', n_shape n = DefaultStmt m -> exec m Start s t o s' ->
      exec n (AtCase (n_id n)) s t o s'
  | x_default_sub : forall n m en s t o s', n_shape n = DefaultStmt m -> inside en m -> exec m en s t o s' ->
      exec n en s t o s'
  | x_if_fails : forall n pre c m e s a s', n_shape n = IfStmt pre c m e -> head pre (Some c) s (Fails a) s' ->
      exec n Start s [] (Abrupt a) s'
  | x_if_true : forall n pre c m e s s1 t o s', n_shape n = IfStmt pre c m e ->
      head pre (Some c) s (Truth true) s1 -> exec m Start s1 t o s' -> exec n Start s t o s'
  | x_if_false : forall n pre c m e s s1 t o s', n_shape n = IfStmt pre c m (Some e) ->
      head pre (Some c) s (Truth false) s1 -> exec e Start s1 t o s' -> exec n Start s t o s'
  | x_if_none : forall n pre c m s s', n_shape n = IfStmt pre c m None ->
      head pre (Some c) s (Truth false) s' -> exec n Start s [] Normal s'
  | x_if_into_then : forall n pre c m e en s t o s', n_shape n = IfStmt pre c m e -> inside en m ->
      exec m en s t o s' -> exec n en s t o s'
  | x_if_into_else : forall n pre c m e en s t o s', n_shape n = IfStmt pre c m (Some e) -> inside en e ->
      exec e en s t o s' -> exec n en s t o s'
  | x_loop : forall n L s b s1 t o s', loop_of n = Some L -> evals (lp_setup L) s (Truth b) s1 ->
      rounds L (if lp_bodyFirst L then PBody Start else PTest) s1 t o s' -> exec n Start s t o s'
  | x_loop_fails : forall n L s a s', loop_of n = Some L -> evals (lp_setup L) s (Fails a) s' ->
      exec n Start s [] (Abrupt a) s'
  | x_loop_into : forall n L en s t o s', loop_of n = Some L -> inside en (lp_body L) ->
      rounds L (PBody en) s t o s' -> exec n en s t o s'
  | x_switch_fails : forall n pre c b x s a s', n_shape n = SwitchStmt pre c b x ->
      head pre (Some c) s (Fails a) s' -> exec n Start s [] (Abrupt a) s'
  | x_switch_none : forall n pre c b x s v s1 s', n_shape n = SwitchStmt pre c b x ->
      head pre (Some c) s (Truth v) s1 -> select n s1 None s' -> exec n Start s [] Normal s'
  | x_switch : forall n pre c b x s v s1 i s2 t o s', n_shape n = SwitchStmt pre c b x ->
      head pre (Some c) s (Truth v) s1 -> select n s1 (Some i) s2 -> inside (AtCase i) b ->
      exec b (AtCase i) s2 t o s' -> exec n Start s t (unbroken o) s'
  | x_switch_into : forall n pre c b x l s t o s', n_shape n = SwitchStmt pre c b x ->
      inside (AtLabel l) b -> exec b (AtLabel l) s t o s' -> exec n (AtLabel l) s t (unbroken o) s'
  | x_try : forall n b hs s t o s', n_shape n = CXXTryStmt b hs -> exec b Start s t o s' -> exec n Start s t o s'
  | x_try_caught : forall n b hs h s t1 s1 t2 o s', n_shape n = CXXTryStmt b hs -> exec b Start s t1 (Abrupt AThrow) s1 ->
      In h hs -> exec h Start s1 t2 o s' -> exec n Start s (t1 ++ t2) o s'
  | x_catch : forall n e b s t o s', n_shape n = CXXCatchStmt e b -> exec b Start s t o s' -> exec n Start s t o s'
  | x_objc_try : forall n b hs f s t1 o1 s1 t2 o s', n_shape n = ObjCAtTryStmt b hs f -> exec b Start s t1 o1 s1 ->
      finish f o1 s1 t2 o s' -> exec n Start s (t1 ++ t2) o s'
  | x_objc_caught : forall n b hs f h s t1 s1 t2 o2 s2 t3 o s', n_shape n = ObjCAtTryStmt b hs f ->
      exec b Start s t1 (Abrupt AThrow) s1 -> In h hs -> exec h Start s1 t2 o2 s2 ->
      finish f o2 s2 t3 o s' -> exec n Start s (t1 ++ t2 ++ t3) o s'
  | x_objc_catch : forall n p b s t o s', n_shape n = ObjCAtCatchStmt p b -> exec b Start s t o s' -> exec n Start s t o s'
  | x_objc_finally : forall n b s t o s', n_shape n = ObjCAtFinallyStmt b -> exec b Start s t o s' -> exec n Start s t o s'
  | x_synchronized : forall n e b s v s1 t o s', n_shape n = ObjCAtSynchronizedStmt e b -> eval e s (Truth v) s1 ->
      exec b Start s1 t o s' -> exec n Start s t o s'
  | x_synchronized_fails : forall n e b s a s', n_shape n = ObjCAtSynchronizedStmt e b -> eval e s (Fails a) s' ->
      exec n Start s [] (Abrupt a) s'
  | x_autorelease : forall n b s t o s', n_shape n = ObjCAutoreleasePoolStmt b -> exec b Start s t o s' ->
      exec n Start s t o s'
  (** The statements [l] of [block], the first being number [i]. *)
  with execs : node -> nat -> list node -> entry -> st -> list event -> out -> st -> Prop :=
  | xs_nil : forall block i s, execs block i [] Start s [] Normal s
  | xs_next : forall block i m l s t1 s1 t2 o s', exec m Start s t1 Normal s1 ->
      execs block (S i) l Start s1 t2 o s' -> execs block i (m :: l) Start s ((block, i) :: t1 ++ t2) o s'
  | xs_abrupt : forall block i m l s t a s', exec m Start s t (Abrupt a) s' ->
      execs block i (m :: l) Start s ((block, i) :: t) (Abrupt a) s'
  | xs_skip : forall block i m l en s t o s', en <> Start -> ~ inside en m ->
      execs block (S i) l en s t o s' -> execs block i (m :: l) en s t o s'
  | xs_enter : forall block i m l en s t1 s1 t2 o s', inside en m -> exec m en s t1 Normal s1 ->
      execs block (S i) l Start s1 t2 o s' -> execs block i (m :: l) en s (t1 ++ t2) o s'
  | xs_enter_abrupt : forall block i m l en s t a s', inside en m -> exec m en s t (Abrupt a) s' ->
      execs block i (m :: l) en s t (Abrupt a) s'
  with rounds : loopparts -> phase -> st -> list event -> out -> st -> Prop :=
  | r_fails : forall L s a s', head (lp_pre L) (lp_test L) s (Fails a) s' -> rounds L PTest s [] (Abrupt a) s'
  | r_done : forall L s s', head (lp_pre L) (lp_test L) s (Truth false) s' -> rounds L PTest s [] Normal s'
  | r_again : forall L s s1 t o s', head (lp_pre L) (lp_test L) s (Truth true) s1 ->
      rounds L (PBody Start) s1 t o s' -> rounds L PTest s t o s'
  | r_body : forall L en s t1 o1 s1 t2 o s', exec (lp_body L) en s t1 o1 s1 ->
      o1 = Normal \/ o1 = Abrupt AContinue ->
      rounds L PStep s1 t2 o s' -> rounds L (PBody en) s (t1 ++ t2) o s'
  | r_break : forall L en s t s', exec (lp_body L) en s t (Abrupt ABreak) s' -> rounds L (PBody en) s t Normal s'
  | r_abrupt : forall L en s t a s', exec (lp_body L) en s t (Abrupt a) s' ->
      a <> ABreak -> a <> AContinue -> rounds L (PBody en) s t (Abrupt a) s'
  | r_step : forall L s b s1 t o s', evals (lp_step L) s (Truth b) s1 -> rounds L PTest s1 t o s' ->
      rounds L PStep s t o s'
  | r_step_fails : forall L s a s', evals (lp_step L) s (Fails a) s' -> rounds L PStep s [] (Abrupt a) s'
  (** The finally part: its own failure replaces the outcome so far. *)
  with finish : option node -> out -> st -> list event -> out -> st -> Prop :=
  | f_none : forall o s, finish None o s [] o s
  | f_cut : forall f s, finish f (Abrupt ACut) s [] (Abrupt ACut) s
  | f_keeps : forall f o s t s', o <> Abrupt ACut -> exec f Start s t Normal s' -> finish (Some f) o s t o s'
  | f_replaces : forall f o s t a s', o <> Abrupt ACut -> exec f Start s t (Abrupt a) s' ->
      finish (Some f) o s t (Abrupt a) s'.

  (** A function body: a goto re-enters the body at the label. *)
  Inductive run : node -> entry -> st -> list event -> out -> st -> Prop :=
  | run_once : forall body en s t o s', exec body en s t o s' -> run body en s t o s'
  | run_goto : forall body en s t1 l s1 t2 o s', exec body en s t1 (Abrupt (AGoto l)) s1 ->
      inside (AtLabel l) body -> run body (AtLabel l) s1 t2 o s' -> run body en s (t1 ++ t2) o s'.

  (** Same behaviour: whatever one can do, the other can do too, from every entry. *)
  Definition does (n : node) (en : entry) (s : st) (o : out) (s' : st) : Prop := exists t, exec n en s t o s'.
  Definition equivalent (n m : node) : Prop := forall en s o s', does n en s o s' <-> does m en s o s'.
End Exec.
