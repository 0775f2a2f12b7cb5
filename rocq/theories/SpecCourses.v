(** * Specification vocabulary: the courses execution can take through a statement

    Every loop is entered at most once; what counts are the decisions met on the way: which way
    each test of a condition came out, and where each switch was entered. *)
From Verif Require Import Base ModelAST SpecAST.

Inductive decision :=
| Tested (e : node) (b : bool)          (* [e] was tested and came out [b] *)
| Entered (sw : node) (k : nat)         (* the switch was entered at its [k]-th statement *)
| Passed (sw : node).                   (* no label of the switch matched *)

(** ** Conditions *)
(** What is evaluated through to the operand. *)
Definition wraps (e x : node) : Prop :=
  match n_shape e with
  | ParenExpr y | ImplicitCastExpr _ y | CStyleCastExpr _ y | OtherCastExpr _ y | ExprWithCleanups y => y = x
  | _ => False
  end.
(** Tested as a whole. *)
Definition one_test (e : node) : Prop :=
  match n_shape e with
  | ParenExpr _ | ImplicitCastExpr _ _ | CStyleCastExpr _ _ | OtherCastExpr _ _ | ExprWithCleanups _
  | UnaryOperator UO_LNot _ | BinaryOperator BO_LAnd _ _ | BinaryOperator BO_LOr _ _
  | ConditionalOperator _ _ _ => False
  | _ => True
  end.
(** [tests e b p]: evaluating the condition [e] can come out [b] with the decisions [p], in order. *)
Inductive tests : node -> bool -> list decision -> Prop :=
| te_one : forall e b, one_test e -> tests e b [Tested e b]
| te_wrap : forall e x b p, wraps e x -> tests x b p -> tests e b p
| te_not : forall e x b p, n_shape e = UnaryOperator UO_LNot x -> tests x b p -> tests e (negb b) p
| te_and_false : forall e l r p, n_shape e = BinaryOperator BO_LAnd l r ->
    tests l false p -> tests e false p
| te_and_true : forall e l r b p q, n_shape e = BinaryOperator BO_LAnd l r ->
    tests l true p -> tests r b q -> tests e b (p ++ q)
| te_or_true : forall e l r p, n_shape e = BinaryOperator BO_LOr l r ->
    tests l true p -> tests e true p
| te_or_false : forall e l r b p q, n_shape e = BinaryOperator BO_LOr l r ->
    tests l false p -> tests r b q -> tests e b (p ++ q)
| te_choice : forall e c x y w b p q, n_shape e = ConditionalOperator c x y ->
    tests c w p -> tests (if w then x else y) b q -> tests e b (p ++ q).

(** ** Statements *)
Inductive jump := JBreak | JContinue | JLeave.

(** Statements that control no others (the operators inside expression statements are not
    looked at). *)
Definition undivided (n : node) : Prop :=
  match n_shape n with
  | CompoundStmt _ | IfStmt _ _ _ _ | WhileStmt _ _ _ | DoStmt _ _ | ForStmt _ _ _ _ _
  | CXXForRangeStmt _ _ _ _ | ObjCForCollectionStmt _ _ _ | SwitchStmt _ _ _ _ | CaseStmt _ _
  | DefaultStmt _ | LabelStmt _ _ | CXXTryStmt _ _ | CXXCatchStmt _ _ | ObjCAtTryStmt _ _ _
  | ObjCAtCatchStmt _ _ | ObjCAtFinallyStmt _ | ObjCAtSynchronizedStmt _ _
  | ObjCAutoreleasePoolStmt _ => False
  | _ => True
  end.
(** Where control goes after one: on, or away. *)
Definition jump_of (n : node) : option jump :=
  match n_shape n with
  | BreakStmt => Some JBreak
  | ContinueStmt => Some JContinue
  | ReturnStmt _ | GotoStmt _ | IndirectGotoStmt _ | ObjCAtThrowStmt _ | CXXThrowExpr _ => Some JLeave
  | _ => None
  end.
(** What a loop resp. a switch lets through. *)
Definition after_loop (o : option jump) : option jump :=
  match o with Some JLeave => Some JLeave | _ => None end.
Definition after_switch (o : option jump) : option jump :=
  match o with Some JBreak => None | _ => o end.
(** A default label, possibly behind case labels on the same statement. *)
Inductive default_label : node -> Prop :=
| dl_default : forall n s, n_shape n = DefaultStmt s -> default_label n
| dl_behind : forall n v s, n_shape n = CaseStmt v s -> default_label s -> default_label n.
(** A loop testing before its body. *)
Definition test_first (n : node) (test : option node) (b : node) : Prop :=
  match n_shape n with
  | WhileStmt _ c b' => test = Some c /\ b = b'
  | ForStmt _ _ c _ b' => test = c /\ b = b'
  | _ => False
  end.
(** A loop over a collection, tested by having elements left. *)
Definition for_each (n : node) (b : node) : Prop :=
  match n_shape n with
  | ObjCForCollectionStmt _ _ b' | CXXForRangeStmt _ _ _ b' => b = b'
  | _ => False
  end.

(** [course n p o]: execution can go through [n] making the decisions [p], and leave it by [o]
    ([None]: at its end). *)
Inductive course : node -> list decision -> option jump -> Prop :=
| co_undivided : forall n, undivided n -> course n [] (jump_of n)
| co_block : forall n l p o, n_shape n = CompoundStmt l -> courses l p o -> course n p o
| co_then : forall n pre c a e p q o, n_shape n = IfStmt pre c a e ->
    tests c true p -> course a q o -> course n (p ++ q) o
| co_else : forall n pre c a b p q o, n_shape n = IfStmt pre c a (Some b) ->
    tests c false p -> course b q o -> course n (p ++ q) o
| co_no_else : forall n pre c a p, n_shape n = IfStmt pre c a None ->
    tests c false p -> course n p None
| co_skip : forall n c b p, test_first n (Some c) b -> tests c false p -> course n p None
| co_once : forall n c b p q o, test_first n (Some c) b -> tests c true p -> course b q o ->
    course n (p ++ q) (after_loop o)
| co_forever : forall n b p o, test_first n None b -> course b p o -> course n p (after_loop o)
| co_do : forall n b c p q o, n_shape n = DoStmt b c -> course b p o ->
    o = None \/ o = Some JContinue -> tests c false q -> course n (p ++ q) None
| co_do_left : forall n b c p o, n_shape n = DoStmt b c -> course b p o ->
    o = Some JBreak \/ o = Some JLeave -> course n p (after_loop o)
| co_none : forall n b, for_each n b -> course n [Tested n false] None
| co_each : forall n b p o, for_each n b -> course b p o -> course n (Tested n true :: p) (after_loop o)
| co_enter : forall n pre c b cov l before x rest p o,
    n_shape n = SwitchStmt pre c b cov -> n_shape b = CompoundStmt l ->
    l = before ++ x :: rest -> case_label x -> courses (x :: rest) p o ->
    course n (Entered n (length before) :: p) (after_switch o)
| co_pass : forall n pre c b cov l,
    n_shape n = SwitchStmt pre c b cov -> n_shape b = CompoundStmt l ->
    (forall x, In x l -> ~ default_label x) -> course n [Passed n] None
| co_case : forall n v s p o, n_shape n = CaseStmt v s -> course s p o -> course n p o
| co_default : forall n s p o, n_shape n = DefaultStmt s -> course s p o -> course n p o
with courses : list node -> list decision -> option jump -> Prop :=
| cs_done : courses [] [] None
| cs_on : forall x l p q o, course x p None -> courses l q o -> courses (x :: l) (p ++ q) o
| cs_away : forall x l p j, course x p (Some j) -> courses (x :: l) p (Some j).

(** [count n k]: there are exactly [k] of them. *)
Definition count (n : node) (k : nat) : Prop :=
  exists l, NoDup l /\ (forall p o, In (p, o) l <-> course n p o) /\ length l = k.

(** ** Which statements *)
(** A condition of one test. *)
Inductive plain : node -> Prop :=
| pl_one : forall e, one_test e -> plain e
| pl_wrap : forall e x, wraps e x -> plain x -> plain e
| pl_not : forall e x, n_shape e = UnaryOperator UO_LNot x -> plain x -> plain e.
(** [x] is [s] behind case and default labels. *)
Inductive strips : node -> node -> Prop :=
| st_none : forall x, ~ case_label x -> strips x x
| st_case : forall n v x s, n_shape n = CaseStmt v x -> strips x s -> strips n s
| st_default : forall n x s, n_shape n = DefaultStmt x -> strips x s -> strips n s.
(** Every group of a switch but the last one ends with a statement satisfying [P]. *)
Definition closed_by (P : node -> Prop) (groups : list (list node)) : Prop :=
  forall before g h after, groups = before ++ g :: h :: after ->
    exists r z s, g = r ++ [z] /\ strips z s /\ P s.

(** Conditions of one test each, switches with a default whose groups do not fall through, and
    none of the statements NPath does not look into. *)
Inductive countable : node -> Prop :=
| cn_undivided : forall n, undivided n -> countable n
| cn_block : forall n l, n_shape n = CompoundStmt l -> (forall x, In x l -> countable x) -> countable n
| cn_if : forall n pre c a e, n_shape n = IfStmt pre c a e -> plain c -> countable a ->
    (forall b, e = Some b -> countable b) -> countable n
| cn_while : forall n pre c b, n_shape n = WhileStmt pre c b -> plain c -> countable b -> countable n
| cn_do : forall n c b, n_shape n = DoStmt b c -> plain c -> countable b -> countable n
| cn_for : forall n i pre c inc b, n_shape n = ForStmt i pre c inc b ->
    (forall x, i = Some x -> undivided x) -> (forall x, c = Some x -> plain x) -> countable b ->
    countable n
| cn_each : forall n e c b, n_shape n = ObjCForCollectionStmt e c b -> countable b -> countable n
| cn_switch : forall n pre c b cov l groups,
    n_shape n = SwitchStmt pre c b cov -> n_shape b = CompoundStmt l ->
    case_groups l [] groups -> (exists x, In x l /\ default_label x) ->
    closed_by (fun s => undivided s /\ jump_of s <> None) groups ->
    (forall x s, In x l -> strips x s -> countable s) -> countable n.

(** Moreover no jumps but the breaks closing the groups of switches, and no other loops than
    [while]. *)
Inductive structured : node -> Prop :=
| sd_undivided : forall n, undivided n -> jump_of n = None -> structured n
| sd_block : forall n l, n_shape n = CompoundStmt l -> (forall x, In x l -> structured x) -> structured n
| sd_if : forall n pre c a e, n_shape n = IfStmt pre c a e -> plain c -> structured a ->
    (forall b, e = Some b -> structured b) -> structured n
| sd_while : forall n pre c b, n_shape n = WhileStmt pre c b -> plain c -> structured b -> structured n
| sd_switch : forall n pre c b cov l groups,
    n_shape n = SwitchStmt pre c b cov -> n_shape b = CompoundStmt l -> plain c ->
    case_groups l [] groups -> (exists x, In x l /\ default_label x) ->
    closed_by (fun s => n_shape s = BreakStmt) groups ->
    (forall g r x rest s, In g groups -> g = r ++ x :: rest -> strips x s -> n_shape s = BreakStmt -> rest = []) ->
    (forall x s, In x l -> strips x s -> n_shape s <> BreakStmt -> structured s) -> structured n.
