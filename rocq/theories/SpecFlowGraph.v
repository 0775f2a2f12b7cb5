(** * Specification vocabulary: the flow graph of a function

    Vertices are numbers, edges are listed one by one (two edges may join the same vertices).
    Each part of a function is given by where it is entered, where control goes after it, the
    vertices it adds and the edges leaving them. *)
From Verif Require Import Base ModelAST SpecAST SpecCourses.

Definition edge : Type := nat * nat.

(** Where jumps lead. *)
Record targets := { t_break : option nat; t_continue : option nat; t_leave : nat; t_label : str -> nat }.
Definition in_loop (T : targets) (brk cont : nat) : targets :=
  {| t_break := Some brk; t_continue := Some cont; t_leave := t_leave T; t_label := t_label T |}.
Definition in_switch (T : targets) (brk : nat) : targets :=
  {| t_break := Some brk; t_continue := t_continue T; t_leave := t_leave T; t_label := t_label T |}.

(** Nothing in it asks for a decision. *)
Definition range_for (n : node) : Prop := exists i v r b, n_shape n = CXXForRangeStmt i v r b.
Definition undecided (n : node) : Prop := forall m, below n m -> ~ decision_point m /\ ~ range_for m.

Section Flow.
  (** Which expressions of the kinds not told apart evaluate all their operands in turn (lambdas,
      blocks and [a ?: b] do not). *)
  Variable simple : node -> Prop.

  (** Expressions and declarations that evaluate all their operands in turn. *)
  Definition in_turn_only (e : node) : Prop :=
    match n_shape e with
    | BinaryOperator BO_LAnd _ _ | BinaryOperator BO_LOr _ _ | ConditionalOperator _ _ _ | CXXThrowExpr _ => False
    | OtherExpr _ => simple e
    | DeclStmt _ | VarDecl _ _ => True
    | _ => isExpr e = true
    end.

  (** [value T e i j V E]: evaluating [e] for its value begins at [i] and goes on to [j]. *)
  Inductive value (T : targets) : node -> nat -> nat -> list nat -> list edge -> Prop :=
  | va_turn : forall e i m j V E, in_turn_only e -> values T (kids e) i m V E ->
      value T e i j (V ++ [m]) (E ++ [(m, j)])
  | va_throw : forall e x i m j V E, n_shape e = CXXThrowExpr x -> values T (opt x) i m V E ->
      value T e i j (V ++ [m]) (E ++ [(m, t_leave T)])
  | va_and : forall e l r i m j V E V' E', n_shape e = BinaryOperator BO_LAnd l r ->
      test T l i m j V E -> value T r m j V' E' -> value T e i j (V ++ V') (E ++ E')
  | va_or : forall e l r i m j V E V' E', n_shape e = BinaryOperator BO_LOr l r ->
      test T l i j m V E -> value T r m j V' E' -> value T e i j (V ++ V') (E ++ E')
  | va_choice : forall e c x y i a b j V E V1 E1 V2 E2, n_shape e = ConditionalOperator c x y ->
      test T c i a b V E -> value T x a j V1 E1 -> value T y b j V2 E2 ->
      value T e i j (V ++ V1 ++ V2) (E ++ E1 ++ E2)
  (** one after the other *)
  with values (T : targets) : list node -> nat -> nat -> list nat -> list edge -> Prop :=
  | vs_done : forall i, values T [] i i [] []
  | vs_next : forall e l i m j V E V' E', value T e i m V E -> values T l m j V' E' ->
      values T (e :: l) i j (V ++ V') (E ++ E')
  (** [test T e i yes no V E]: testing [e] begins at [i] and goes on to [yes] or to [no]. *)
  with test (T : targets) : node -> nat -> nat -> nat -> list nat -> list edge -> Prop :=
  | ts_value : forall e i m yes no V E, value T e i m V E ->
      test T e i yes no (V ++ [m]) (E ++ [(m, yes); (m, no)])
  | ts_paren : forall e x i yes no V E, n_shape e = ParenExpr x -> test T x i yes no V E -> test T e i yes no V E
  | ts_not : forall e x i yes no V E, n_shape e = UnaryOperator UO_LNot x ->
      test T x i no yes V E -> test T e i yes no V E
  | ts_and : forall e l r i m yes no V E V' E', n_shape e = BinaryOperator BO_LAnd l r ->
      test T l i m no V E -> test T r m yes no V' E' -> test T e i yes no (V ++ V') (E ++ E')
  | ts_or : forall e l r i m yes no V E V' E', n_shape e = BinaryOperator BO_LOr l r ->
      test T l i yes m V E -> test T r m yes no V' E' -> test T e i yes no (V ++ V') (E ++ E').

  (** [flow T n i j V E C D]: the statement [n] begins at [i] and goes on to [j]; the case labels in
      it that belong to a switch around it are at [C], default labels at [D]. *)
  Inductive flow : targets -> node -> nat -> nat -> list nat -> list edge -> list nat -> list nat -> Prop :=
  | fl_expression : forall T n i j V E, isExpr n = true -> value T n i j V E -> flow T n i j V E [] []
  | fl_declaration : forall T n i j V E l, n_shape n = DeclStmt l -> value T n i j V E -> flow T n i j V E [] []
  | fl_null : forall T n i j, n_shape n = NullStmt -> flow T n i j [i] [(i, j)] [] []
  | fl_block : forall T n l i j V E C D, n_shape n = CompoundStmt l -> flows T l i j V E C D -> flow T n i j V E C D
  | fl_if : forall T n pre c a i m yes j V0 E0 V1 E1 V2 E2 C D, n_shape n = IfStmt pre c a None ->
      values T pre i m V0 E0 -> test T c m yes j V1 E1 -> flow T a yes j V2 E2 C D ->
      flow T n i j (V0 ++ V1 ++ V2) (E0 ++ E1 ++ E2) C D
  | fl_if_else : forall T n pre c a b i m yes no j V0 E0 V1 E1 V2 E2 C D V3 E3 C' D',
      n_shape n = IfStmt pre c a (Some b) ->
      values T pre i m V0 E0 -> test T c m yes no V1 E1 -> flow T a yes j V2 E2 C D -> flow T b no j V3 E3 C' D' ->
      flow T n i j (V0 ++ V1 ++ V2 ++ V3) (E0 ++ E1 ++ E2 ++ E3) (C ++ C') (D ++ D')
  | fl_while : forall T n pre c b i m yes j V0 E0 V1 E1 V2 E2 C D, n_shape n = WhileStmt pre c b ->
      values T pre i m V0 E0 -> test T c m yes j V1 E1 -> flow (in_loop T j i) b yes i V2 E2 C D ->
      flow T n i j (V0 ++ V1 ++ V2) (E0 ++ E1 ++ E2) C D
  | fl_do : forall T n c b i m j V1 E1 V2 E2 C D, n_shape n = DoStmt b c ->
      flow (in_loop T j m) b i m V1 E1 C D -> test T c m i j V2 E2 ->
      flow T n i j (V1 ++ V2) (E1 ++ E2) C D
  | fl_for : forall T n init pre c inc b i h m yes k j V0 E0 V1 E1 V2 E2 V3 E3 V4 E4 C D,
      n_shape n = ForStmt init pre (Some c) inc b ->
      flows T (opt init) i h V0 E0 [] [] -> values T pre h m V1 E1 -> test T c m yes j V2 E2 ->
      flow (in_loop T j k) b yes k V3 E3 C D -> values T (opt inc) k h V4 E4 ->
      flow T n i j (V0 ++ V1 ++ V2 ++ V3 ++ V4) (E0 ++ E1 ++ E2 ++ E3 ++ E4) C D
  (** without a condition: around and around *)
  | fl_forever : forall T n init pre inc b i h m k yes j V0 E0 V1 E1 V2 E2 V3 E3 C D,
      n_shape n = ForStmt init pre None inc b ->
      flows T (opt init) i h V0 E0 [] [] -> values T pre m yes V1 E1 ->
      flow (in_loop T j k) b yes k V2 E2 C D -> values T (opt inc) k h V3 E3 ->
      flow T n i j (V0 ++ h :: V1 ++ V2 ++ V3) (E0 ++ (h, m) :: E1 ++ E2 ++ E3) C D
  (** over the elements of a range or collection: at [h] it is decided whether there is another *)
  | fl_range : forall T n init v r b i m h next yes j V0 E0 V1 E1 V2 E2 V3 E3 C D,
      n_shape n = CXXForRangeStmt init v r b ->
      flows T (opt init) i m V0 E0 [] [] -> value T r m h V1 E1 -> value T v next yes V2 E2 ->
      flow (in_loop T j h) b yes h V3 E3 C D ->
      flow T n i j (V0 ++ V1 ++ h :: V2 ++ V3) (E0 ++ E1 ++ (h, next) :: (h, j) :: E2 ++ E3) C D
  | fl_each : forall T n e c b i h next yes j V1 E1 V2 E2 V3 E3 C D, n_shape n = ObjCForCollectionStmt e c b ->
      value T c i h V1 E1 -> value T e next yes V2 E2 -> flow (in_loop T j h) b yes h V3 E3 C D ->
      flow T n i j (V1 ++ h :: V2 ++ V3) (E1 ++ (h, next) :: (h, j) :: E2 ++ E3) C D
  (** to one of the case labels, or else to the default label or past the switch *)
  | fl_switch : forall T n pre c b cov i m h start j V0 E0 V1 E1 V2 E2 C D last, n_shape n = SwitchStmt pre c b cov ->
      values T pre i m V0 E0 -> value T c m h V1 E1 -> flow (in_switch T j) b start j V2 E2 C D ->
      D = [] /\ last = j \/ D = [last] ->
      flow T n i j (V0 ++ V1 ++ h :: V2) (E0 ++ E1 ++ map (pair h) (C ++ [last]) ++ E2) [] []
  | fl_case : forall T n v s i m j V E C D, n_shape n = CaseStmt v s -> undecided v -> flow T s m j V E C D ->
      flow T n i j (i :: V) ((i, m) :: E) (i :: C) D
  | fl_default : forall T n s i m j V E C D, n_shape n = DefaultStmt s -> flow T s m j V E C D ->
      flow T n i j (i :: V) ((i, m) :: E) C (i :: D)
  | fl_label : forall T n l s m j V E C D, n_shape n = LabelStmt l s -> flow T s m j V E C D ->
      flow T n (t_label T l) j (t_label T l :: V) ((t_label T l, m) :: E) C D
  | fl_goto : forall T n l i j, n_shape n = GotoStmt l -> flow T n i j [i] [(i, t_label T l)] [] []
  | fl_break : forall T n i j k, n_shape n = BreakStmt -> t_break T = Some k -> flow T n i j [i] [(i, k)] [] []
  | fl_continue : forall T n i j k, n_shape n = ContinueStmt -> t_continue T = Some k -> flow T n i j [i] [(i, k)] [] []
  | fl_return : forall T n v i m j V E, n_shape n = ReturnStmt v -> values T (opt v) i m V E ->
      flow T n i j (V ++ [m]) (E ++ [(m, t_leave T)]) [] []
  | fl_throw : forall T n v i m j V E, n_shape n = ObjCAtThrowStmt v -> values T (opt v) i m V E ->
      flow T n i j (V ++ [m]) (E ++ [(m, t_leave T)]) [] []
  (** into the block, or from there to one of the handlers *)
  | fl_try : forall T n b hs i m j V E C D starts V' E' C' D',
      n_shape n = CXXTryStmt b hs \/ n_shape n = ObjCAtTryStmt b hs None ->
      flow T b m j V E C D -> handlers T hs starts j V' E' C' D' ->
      flow T n i j (i :: V ++ V') (map (pair i) (m :: starts) ++ E ++ E') (C ++ C') (D ++ D')
  | fl_synchronized : forall T n e b i m j V E V' E' C D, n_shape n = ObjCAtSynchronizedStmt e b ->
      value T e i m V E -> flow T b m j V' E' C D -> flow T n i j (V ++ V') (E ++ E') C D
  | fl_pool : forall T n b i j V E C D, n_shape n = ObjCAutoreleasePoolStmt b -> flow T b i j V E C D ->
      flow T n i j V E C D
  (** one after the other *)
  with flows : targets -> list node -> nat -> nat -> list nat -> list edge -> list nat -> list nat -> Prop :=
  | fs_done : forall T i, flows T [] i i [] [] [] []
  | fs_next : forall T n l i m j V E C D V' E' C' D', flow T n i m V E C D -> flows T l m j V' E' C' D' ->
      flows T (n :: l) i j (V ++ V') (E ++ E') (C ++ C') (D ++ D')
  (** handlers, beginning at [starts] *)
  with handlers : targets -> list node -> list nat -> nat -> list nat -> list edge -> list nat -> list nat -> Prop :=
  | ha_done : forall T j, handlers T [] [] j [] [] [] []
  | ha_next : forall T h l p b i m starts j V0 E0 V E C D V' E' C' D',
      n_shape h = CXXCatchStmt p b \/ n_shape h = ObjCAtCatchStmt p b ->
      values T (opt p) i m V0 E0 -> flow T b m j V E C D -> handlers T l starts j V' E' C' D' ->
      handlers T (h :: l) (i :: starts) j (V0 ++ V ++ V') (E0 ++ E ++ E') (C ++ C') (D ++ D').

  (** The flow graph of a function or method: its body ends at the one exit, as do all jumps out of it. *)
  Definition flow_graph (d : node) (V : list nat) (E : list edge) : Prop :=
    exists T params body start W,
      ((exists f, n_shape d = FunctionDecl f params (Some body) /\ f_isDefinition f = true)
       \/ exists m, n_shape d = ObjCMethodDecl m params (Some body))
      /\ (forall p, In p params -> undecided p)
      /\ flow T body start (t_leave T) W E [] [] /\ V = W ++ [t_leave T] /\ t_break T = None /\ t_continue T = None
      /\ NoDup V /\ (forall a b, In (a, b) E -> In a V /\ In b V) /\ In start V.

  (** *** What has a flow graph *)
  (** Expressions made of those told about above. *)
  Inductive evaluable : node -> Prop :=
  | ev_turn : forall e, in_turn_only e -> (forall x, In x (kids e) -> evaluable x) -> evaluable e
  | ev_throw : forall e x, n_shape e = CXXThrowExpr x -> (forall y, x = Some y -> evaluable y) -> evaluable e
  | ev_logic : forall e o l r, n_shape e = BinaryOperator o l r -> o = BO_LAnd \/ o = BO_LOr ->
      evaluable l -> evaluable r -> evaluable e
  | ev_choice : forall e c x y, n_shape e = ConditionalOperator c x y ->
      evaluable c -> evaluable x -> evaluable y -> evaluable e.
  Definition expression_or_declaration (n : node) : Prop := isExpr n = true \/ exists l, n_shape n = DeclStmt l.

  (** [drawable brk cont sw n d L G]: a statement of the kinds told about above, with break, continue
      and case labels only where [brk], [cont] and [sw] allow them, [d] default labels for a switch
      around it, the labels [L] and gotos to [G]. *)
  Inductive drawable : bool -> bool -> bool -> node -> nat -> list str -> list str -> Prop :=
  | dr_expression : forall bk ct sw n, expression_or_declaration n -> evaluable n -> drawable bk ct sw n 0 [] []
  | dr_null : forall bk ct sw n, n_shape n = NullStmt -> drawable bk ct sw n 0 [] []
  | dr_block : forall bk ct sw n l d L G, n_shape n = CompoundStmt l -> drawables bk ct sw l d L G -> drawable bk ct sw n d L G
  | dr_if : forall bk ct sw n pre c a d L G, n_shape n = IfStmt pre c a None ->
      (forall x, In x pre -> evaluable x) -> evaluable c -> drawable bk ct sw a d L G -> drawable bk ct sw n d L G
  | dr_if_else : forall bk ct sw n pre c a b d L G d' L' G', n_shape n = IfStmt pre c a (Some b) ->
      (forall x, In x pre -> evaluable x) -> evaluable c -> drawable bk ct sw a d L G -> drawable bk ct sw b d' L' G' ->
      drawable bk ct sw n (d + d') (L ++ L') (G ++ G')
  | dr_while : forall bk ct sw n pre c b d L G, n_shape n = WhileStmt pre c b ->
      (forall x, In x pre -> evaluable x) -> evaluable c -> drawable true true sw b d L G -> drawable bk ct sw n d L G
  | dr_do : forall bk ct sw n c b d L G, n_shape n = DoStmt b c ->
      evaluable c -> drawable true true sw b d L G -> drawable bk ct sw n d L G
  | dr_for : forall bk ct sw n init pre c inc b d L G, n_shape n = ForStmt init pre c inc b ->
      (forall x, init = Some x -> expression_or_declaration x /\ evaluable x) ->
      (forall x, In x pre -> evaluable x) -> (forall x, c = Some x -> evaluable x) -> (forall x, inc = Some x -> evaluable x) ->
      drawable true true sw b d L G -> drawable bk ct sw n d L G
  | dr_range : forall bk ct sw n init v r b d L G, n_shape n = CXXForRangeStmt init v r b ->
      (forall x, init = Some x -> expression_or_declaration x /\ evaluable x) -> evaluable v -> evaluable r ->
      drawable true true sw b d L G -> drawable bk ct sw n d L G
  | dr_each : forall bk ct sw n e c b d L G, n_shape n = ObjCForCollectionStmt e c b -> evaluable e -> evaluable c ->
      drawable true true sw b d L G -> drawable bk ct sw n d L G
  | dr_switch : forall bk ct sw n pre c b cov d L G, n_shape n = SwitchStmt pre c b cov ->
      (forall x, In x pre -> evaluable x) -> evaluable c -> drawable true ct true b d L G -> d <= 1 ->
      drawable bk ct sw n 0 L G
  | dr_case : forall bk ct n v s d L G, n_shape n = CaseStmt v s -> undecided v -> drawable bk ct true s d L G ->
      drawable bk ct true n d L G
  | dr_default : forall bk ct n s d L G, n_shape n = DefaultStmt s -> drawable bk ct true s d L G ->
      drawable bk ct true n (S d) L G
  | dr_label : forall bk ct sw n l s d L G, n_shape n = LabelStmt l s -> drawable bk ct sw s d L G ->
      drawable bk ct sw n d (l :: L) G
  | dr_goto : forall bk ct sw n l, n_shape n = GotoStmt l -> drawable bk ct sw n 0 [] [l]
  | dr_break : forall ct sw n, n_shape n = BreakStmt -> drawable true ct sw n 0 [] []
  | dr_continue : forall bk sw n, n_shape n = ContinueStmt -> drawable bk true sw n 0 [] []
  | dr_leave : forall bk ct sw n v, n_shape n = ReturnStmt v \/ n_shape n = ObjCAtThrowStmt v ->
      (forall x, v = Some x -> evaluable x) -> drawable bk ct sw n 0 [] []
  | dr_try : forall bk ct sw n b hs d L G d' L' G', n_shape n = CXXTryStmt b hs \/ n_shape n = ObjCAtTryStmt b hs None ->
      drawable bk ct sw b d L G -> drawable_handlers bk ct sw hs d' L' G' ->
      drawable bk ct sw n (d + d') (L ++ L') (G ++ G')
  | dr_synchronized : forall bk ct sw n e b d L G, n_shape n = ObjCAtSynchronizedStmt e b -> evaluable e ->
      drawable bk ct sw b d L G -> drawable bk ct sw n d L G
  | dr_pool : forall bk ct sw n b d L G, n_shape n = ObjCAutoreleasePoolStmt b -> drawable bk ct sw b d L G ->
      drawable bk ct sw n d L G
  with drawables : bool -> bool -> bool -> list node -> nat -> list str -> list str -> Prop :=
  | drs_done : forall bk ct sw, drawables bk ct sw [] 0 [] []
  | drs_next : forall bk ct sw n l d L G d' L' G', drawable bk ct sw n d L G -> drawables bk ct sw l d' L' G' ->
      drawables bk ct sw (n :: l) (d + d') (L ++ L') (G ++ G')
  with drawable_handlers : bool -> bool -> bool -> list node -> nat -> list str -> list str -> Prop :=
  | drh_done : forall bk ct sw, drawable_handlers bk ct sw [] 0 [] []
  | drh_next : forall bk ct sw h l p b d L G d' L' G', n_shape h = CXXCatchStmt p b \/ n_shape h = ObjCAtCatchStmt p b ->
      (forall x, p = Some x -> evaluable x) -> drawable bk ct sw b d L G -> drawable_handlers bk ct sw l d' L' G' ->
      drawable_handlers bk ct sw (h :: l) (d + d') (L ++ L') (G ++ G').

  (** A function whose jumps all have a place to go to. *)
  Definition drawable_function (d : node) : Prop :=
    exists params body L G,
      ((exists f, n_shape d = FunctionDecl f params (Some body) /\ f_isDefinition f = true)
       \/ exists m, n_shape d = ObjCMethodDecl m params (Some body))
      /\ (forall p, In p params -> undecided p)
      /\ drawable false false false body 0 L G /\ NoDup L /\ incl G L.
End Flow.

(** McCabe's number of a graph with one entry and one exit. *)
Definition cyclomatic_number (V : list nat) (E : list edge) : Z :=
  (Z.of_nat (length E) - Z.of_nat (length V) + 2)%Z.

(** What OCLint counts otherwise: a for loop without a condition decides nothing, a range-based one does. *)
Definition endless_for (n : node) : Prop := exists i pre inc b, n_shape n = ForStmt i pre None inc b.

(** ** Decisions that NPath looks at *)
(** In a condition: the operators reached through operators, parentheses and casts. *)
Inductive logical : node -> Prop :=
| lg_none : forall e, undecided e -> logical e
| lg_binary : forall e o l r, n_shape e = BinaryOperator o l r -> o = BO_LAnd \/ o = BO_LOr ->
    logical l -> logical r -> logical e
| lg_choice : forall e c x y, n_shape e = ConditionalOperator c x y -> logical c -> logical x -> logical y -> logical e
| lg_paren : forall e x, n_shape e = ParenExpr x -> logical x -> logical e
| lg_cast : forall e k x, n_shape e = ImplicitCastExpr k x \/ n_shape e = CStyleCastExpr k x \/ n_shape e = OtherCastExpr k x ->
    logical x -> logical e.
(** In a statement: the control statements reached through control statements, their conditions as
    above, every switch with a default and with a group of statements of its own for each label. *)
Inductive seen : node -> Prop :=
| se_none : forall n, undivided n -> undecided n -> seen n
| se_block : forall n l, n_shape n = CompoundStmt l -> (forall x, In x l -> seen x) -> seen n
| se_if : forall n pre c a e, n_shape n = IfStmt pre c a e -> (forall x, In x pre -> undecided x) -> logical c ->
    seen a -> (forall b, e = Some b -> seen b) -> seen n
| se_while : forall n pre c b, n_shape n = WhileStmt pre c b -> (forall x, In x pre -> undecided x) -> logical c ->
    seen b -> seen n
| se_do : forall n c b, n_shape n = DoStmt b c -> logical c -> seen b -> seen n
| se_for : forall n i pre c inc b, n_shape n = ForStmt i pre c inc b -> (forall x, i = Some x -> seen x) ->
    (forall x, In x pre -> undecided x) -> (forall x, c = Some x \/ inc = Some x -> logical x) -> seen b -> seen n
| se_each : forall n e c b, n_shape n = ObjCForCollectionStmt e c b -> undecided e -> undecided c -> seen b -> seen n
| se_switch : forall n pre c b cov l groups, n_shape n = SwitchStmt pre c b cov -> n_shape b = CompoundStmt l ->
    (forall x, In x pre -> undecided x) -> logical c -> case_groups l [] groups ->
    (exists x s, In x l /\ n_shape x = DefaultStmt s) ->
    (forall x, In x l -> ~ case_label x -> seen x) ->
    (forall x v s, In x l -> n_shape x = CaseStmt v s -> undecided v) ->
    (forall x v s, In x l -> n_shape x = CaseStmt v s -> seen s) ->
    (forall x s, In x l -> n_shape x = DefaultStmt s -> seen s) -> seen n.
