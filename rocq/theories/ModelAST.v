(** * Model of Clang syntax trees as OCLint sees them, and of RecursiveASTVisitor *)
From Verif Require Import Base ModelSource.

(** Enumerations of Clang, with a catch-all for what OCLint never distinguishes. *)
Inductive binop := BO_LAnd | BO_LOr | BO_EQ | BO_NE | BO_And | BO_Or | BO_Xor | BO_Rem
  | BO_Assign | BO_CompoundAssign | BO_Other.
Inductive unop := UO_LNot | UO_Not | UO_Plus | UO_Minus | UO_Other.
Inductive castkind := CK_NullToPointer | CK_BitCast | CK_PointerToBoolean | CK_LValueToRValue
  | CK_Other.
Definition binop_eq_dec (a b : binop) : {a = b} + {a <> b}. Proof. decide equality. Defined.
Definition unop_eq_dec (a b : unop) : {a = b} + {a <> b}. Proof. decide equality. Defined.
Definition castkind_eq_dec (a b : castkind) : {a = b} + {a <> b}. Proof. decide equality. Defined.
Definition binop_eqb a b := if binop_eq_dec a b then true else false.
Definition unop_eqb a b := if unop_eq_dec a b then true else false.
Definition castkind_eqb a b := if castkind_eq_dec a b then true else false.

(** A lexical declaration context, as the unused-parameter rule inspects it. *)
Inductive context :=
| CxFunction (thisHasBody hasBody isVirtualMethod : bool)
| CxObjCMethod (inInterfaceContainer inSuperClass inProtocol ibaction : bool)
| CxClosure
| CxRecord
| CxOther.

(** What Clang answers about a variable. *)
Record varinfo := {
  v_isParm : bool;            (* ParmVarDecl *)
  v_name : str;
  v_used : bool; v_referenced : bool;
  v_local : bool;             (* isLocalVarDecl *)
  v_staticMember : bool;      (* isStaticDataMember *)
  v_private : bool;
  v_unusedAttr : bool;
  v_defaultArg : bool;
  v_canonicalType : str;
  v_inTemplate : bool;        (* the lexical context is a function of another templated kind *)
  v_contexts : list context   (* lexical contexts, innermost first *)
}.

(** A C++ member function. *)
Record cxxmethod := {
  cm_virtual : bool; cm_static : bool; cm_private : bool;
  cm_inRecord : bool          (* the lexical context is a CXXRecordDecl *)
}.
Record funinfo := {
  f_name : str;
  f_method : option cxxmethod;
  f_isDefinition : bool;      (* this declaration carries the body *)
  f_bodyLines : Z             (* line count of getBody()'s source range *)
}.
Record objcmethod := {
  om_selector : str;
  om_class : option str;      (* getClassInterface, [None] also when in a protocol *)
  om_overriding : bool;
  om_overridden : list decl;  (* getOverriddenMethods, with their annotations *)
  om_bodyLines : Z
}.
(** Classes as far as bases and destructors are concerned.  Clang's classes form a finite
    acyclic graph: here it is unfolded into a tree, [cr_id] identifying the class. *)
Inductive cxxrecord := CxxRecord (cr_id : nat) (cr_name : str) (cr_hasDefinition cr_polymorphic : bool)
    (cr_destructor : option (bool * bool))            (* is virtual, is protected *)
    (cr_bases : list (bool * option cxxrecord)).       (* is public, the class if it is one *)
Record recordinfo := { r_class : cxxrecord; r_fields : nat; r_methods : nat; r_lines : Z }.
Inductive objckind := OKInterface | OKCategory | OKProtocol | OKImplementation | OKCategoryImpl.
Record objccontainer := {
  oc_kind : objckind;
  oc_name : str;
  oc_lines : Z;
  oc_ivars : nat;
  oc_methods : list (str * bool);    (* selector, is an instance method *)
  oc_classes : list str;             (* the class interface and its superclasses, own first *)
  oc_superMethods : option (str * list (str * bool * decl))
                                     (* the direct superclass and its methods *)
}.

Inductive receiver := RInstance | RClass (typeName : str) | RSuperInstance | RSuperClass.
Record msginfo := {
  ms_selector : str;
  ms_receiver : receiver;
  ms_implicit : bool;
  ms_interface : option str;         (* getReceiverInterface's name *)
  ms_method : option decl;           (* getMethodDecl, with its annotations *)
  ms_methodClass : option str        (* its class interface *)
}.

(** The kinds of nodes, with [A] for sub-nodes.  [pre] lists an init-statement and condition
    variable.  Names follow Clang's classes. *)
Inductive shape (A : Type) : Type :=
(* statements *)
| NullStmt
| CompoundStmt (body : list A)
| IfStmt (pre : list A) (cond thenS : A) (elseS : option A)
| WhileStmt (pre : list A) (cond body : A)
| DoStmt (body cond : A)
| ForStmt (init : option A) (pre : list A) (cond inc : option A) (body : A)
| CXXForRangeStmt (init : option A) (loopVar range body : A)
| ObjCForCollectionStmt (element collection body : A)
| SwitchStmt (pre : list A) (cond body : A) (allEnumCasesCovered : bool)
| CaseStmt (value sub : A)
| DefaultStmt (sub : A)
| LabelStmt (label : str) (sub : A)
| GotoStmt (label : str)
| IndirectGotoStmt (target : A)
| BreakStmt
| ContinueStmt
| ReturnStmt (value : option A)
| CXXTryStmt (block : A) (handlers : list A)
| CXXCatchStmt (exception : option A) (block : A)
| ObjCAtTryStmt (body : A) (catches : list A) (finally : option A)
| ObjCAtCatchStmt (param : option A) (body : A)
| ObjCAtFinallyStmt (body : A)
| ObjCAtSynchronizedStmt (expr body : A)
| ObjCAutoreleasePoolStmt (body : A)
| ObjCAtThrowStmt (expr : option A)
| DeclStmt (decls : list A)
| OtherStmt (subs : list A)
(* expressions *)
| BinaryOperator (op : binop) (lhs rhs : A)
| UnaryOperator (op : unop) (sub : A)
| ConditionalOperator (cond trueE falseE : A)
| ParenExpr (sub : A)
| ImplicitCastExpr (kind : castkind) (sub : A)
| CStyleCastExpr (kind : castkind) (sub : A)
| OtherCastExpr (kind : castkind) (sub : A)
| DeclRefExpr (decl : nat) (name : str) (isEnumConstant : bool)
| IntegerLiteral (value : Z)
| FloatingLiteral (approximateDouble : Z)     (* its bit pattern stands for the double *)
| CharacterLiteral (value : Z)
| StringLiteral (bytes : str)
| CXXBoolLiteralExpr (value : bool)
| ObjCBoolLiteralExpr (value : bool)
| CXXThrowExpr (sub : option A)
| CXXDeleteExpr (argument : A)
| MemberExpr (isArrow : bool) (base : A)
| CallExpr (directCallee : option (str * decl)) (callee : A) (args : list A)
| ObjCMessageExpr (info : msginfo) (instanceReceiver : option A) (args : list A)
| ObjCIvarRefExpr (name : str) (interface : option str) (base : A)
| ObjCPropertyRefExpr (setter : bool) (setterInterface getterInterface : option str) (base : option A)
| ExprWithCleanups (sub : A)
| OtherExpr (subs : list A)
(* declarations *)
| VarDecl (info : varinfo) (init : option A)
| FunctionDecl (info : funinfo) (params : list A) (body : option A)
| ObjCMethodDecl (info : objcmethod) (params : list A) (body : option A)
| CXXRecordDecl (info : recordinfo) (members : list A)
| ObjCContainerDecl (info : objccontainer) (members : list A)
| OtherDecl (subs : list A).
Arguments NullStmt {A}. Arguments CompoundStmt {A}. Arguments IfStmt {A}. Arguments WhileStmt {A}.
Arguments DoStmt {A}. Arguments ForStmt {A}. Arguments CXXForRangeStmt {A}.
Arguments ObjCForCollectionStmt {A}. Arguments SwitchStmt {A}. Arguments CaseStmt {A}.
Arguments DefaultStmt {A}. Arguments LabelStmt {A}. Arguments GotoStmt {A}.
Arguments IndirectGotoStmt {A}. Arguments BreakStmt {A}. Arguments ContinueStmt {A}.
Arguments ReturnStmt {A}. Arguments CXXTryStmt {A}. Arguments CXXCatchStmt {A}.
Arguments ObjCAtTryStmt {A}. Arguments ObjCAtCatchStmt {A}. Arguments ObjCAtFinallyStmt {A}.
Arguments ObjCAtSynchronizedStmt {A}. Arguments ObjCAutoreleasePoolStmt {A}.
Arguments ObjCAtThrowStmt {A}. Arguments DeclStmt {A}. Arguments OtherStmt {A}.
Arguments BinaryOperator {A}. Arguments UnaryOperator {A}. Arguments ConditionalOperator {A}.
Arguments ParenExpr {A}. Arguments ImplicitCastExpr {A}. Arguments CStyleCastExpr {A}.
Arguments OtherCastExpr {A}. Arguments DeclRefExpr {A}. Arguments IntegerLiteral {A}.
Arguments FloatingLiteral {A}. Arguments CharacterLiteral {A}. Arguments StringLiteral {A}.
Arguments CXXBoolLiteralExpr {A}. Arguments ObjCBoolLiteralExpr {A}. Arguments CXXThrowExpr {A}.
Arguments CXXDeleteExpr {A}. Arguments MemberExpr {A}. Arguments CallExpr {A}.
Arguments ObjCMessageExpr {A}. Arguments ObjCIvarRefExpr {A}. Arguments ObjCPropertyRefExpr {A}.
Arguments ExprWithCleanups {A}. Arguments OtherExpr {A}. Arguments VarDecl {A}.
Arguments FunctionDecl {A}. Arguments ObjCMethodDecl {A}. Arguments CXXRecordDecl {A}.
Arguments ObjCContainerDecl {A}. Arguments OtherDecl {A}.

(** A node: its identity (address), the text of its type (empty if it is no expression),
    its kind with sub-nodes. *)
Inductive node := Node (id : nat) (ty : str) (s : shape node).
Definition n_id (n : node) := match n with Node i _ _ => i end.
Definition n_ty (n : node) := match n with Node _ t _ => t end.
Definition n_shape (n : node) := match n with Node _ _ s => s end.

Definition opt {A} (o : option A) : list A := match o with Some a => [a] | None => [] end.

(** The sub-nodes RecursiveASTVisitor traverses, in its order.  The body of a function is
    below its defining declaration only. *)
Definition children {A} (s : shape A) : list A :=
  match s with
  | CompoundStmt l => l
  | IfStmt pre c t e => pre ++ [c; t] ++ opt e
  | WhileStmt pre c b => pre ++ [c; b]
  | DoStmt b c => [b; c]
  | ForStmt i pre c inc b => opt i ++ pre ++ opt c ++ opt inc ++ [b]
  | CXXForRangeStmt i v r b => opt i ++ [v; r; b]
  | ObjCForCollectionStmt e c b => [e; c; b]
  | SwitchStmt pre c b _ => pre ++ [c; b]
  | CaseStmt v s => [v; s]
  | DefaultStmt s | LabelStmt _ s => [s]
  | IndirectGotoStmt t => [t]
  | ReturnStmt v => opt v
  | CXXTryStmt b hs => b :: hs
  | CXXCatchStmt e b => opt e ++ [b]
  | ObjCAtTryStmt b cs f => b :: cs ++ opt f
  | ObjCAtCatchStmt p b => opt p ++ [b]
  | ObjCAtFinallyStmt b => [b]
  | ObjCAtSynchronizedStmt e b => [e; b]
  | ObjCAutoreleasePoolStmt b => [b]
  | ObjCAtThrowStmt e => opt e
  | DeclStmt ds => ds
  | OtherStmt l => l
  | BinaryOperator _ l r => [l; r]
  | UnaryOperator _ e => [e]
  | ConditionalOperator c t f => [c; t; f]
  | ParenExpr e => [e]
  | ImplicitCastExpr _ e | CStyleCastExpr _ e | OtherCastExpr _ e => [e]
  | CXXThrowExpr e => opt e
  | CXXDeleteExpr e => [e]
  | MemberExpr _ b => [b]
  | CallExpr _ c args => c :: args
  | ObjCMessageExpr _ r args => opt r ++ args
  | ObjCIvarRefExpr _ _ b => [b]
  | ObjCPropertyRefExpr _ _ _ b => opt b
  | ExprWithCleanups e => [e]
  | OtherExpr l => l
  | VarDecl _ i => opt i
  | FunctionDecl fi ps b => ps ++ (if f_isDefinition fi then opt b else [])
  | ObjCMethodDecl _ ps b => ps ++ opt b
  | CXXRecordDecl _ l => l
  | ObjCContainerDecl _ l => l
  | OtherDecl l => l
  | NullStmt | GotoStmt _ | BreakStmt | ContinueStmt | DeclRefExpr _ _ _ | IntegerLiteral _
  | FloatingLiteral _ | CharacterLiteral _ | StringLiteral _ | CXXBoolLiteralExpr _
  | ObjCBoolLiteralExpr _ => []
  end.

Definition shape_map {A B} (f : A -> B) (s : shape A) : shape B :=
  match s with
  | NullStmt => NullStmt
  | CompoundStmt l => CompoundStmt (map f l)
  | IfStmt pre c t e => IfStmt (map f pre) (f c) (f t) (option_map f e)
  | WhileStmt pre c b => WhileStmt (map f pre) (f c) (f b)
  | DoStmt b c => DoStmt (f b) (f c)
  | ForStmt i pre c inc b => ForStmt (option_map f i) (map f pre) (option_map f c) (option_map f inc) (f b)
  | CXXForRangeStmt i v r b => CXXForRangeStmt (option_map f i) (f v) (f r) (f b)
  | ObjCForCollectionStmt e c b => ObjCForCollectionStmt (f e) (f c) (f b)
  | SwitchStmt pre c b x => SwitchStmt (map f pre) (f c) (f b) x
  | CaseStmt v s => CaseStmt (f v) (f s)
  | DefaultStmt s => DefaultStmt (f s)
  | LabelStmt l s => LabelStmt l (f s)
  | GotoStmt l => GotoStmt l
  | IndirectGotoStmt t => IndirectGotoStmt (f t)
  | BreakStmt => BreakStmt
  | ContinueStmt => ContinueStmt
  | ReturnStmt v => ReturnStmt (option_map f v)
  | CXXTryStmt b hs => CXXTryStmt (f b) (map f hs)
  | CXXCatchStmt e b => CXXCatchStmt (option_map f e) (f b)
  | ObjCAtTryStmt b cs fin => ObjCAtTryStmt (f b) (map f cs) (option_map f fin)
  | ObjCAtCatchStmt p b => ObjCAtCatchStmt (option_map f p) (f b)
  | ObjCAtFinallyStmt b => ObjCAtFinallyStmt (f b)
  | ObjCAtSynchronizedStmt e b => ObjCAtSynchronizedStmt (f e) (f b)
  | ObjCAutoreleasePoolStmt b => ObjCAutoreleasePoolStmt (f b)
  | ObjCAtThrowStmt e => ObjCAtThrowStmt (option_map f e)
  | DeclStmt ds => DeclStmt (map f ds)
  | OtherStmt l => OtherStmt (map f l)
  | BinaryOperator o l r => BinaryOperator o (f l) (f r)
  | UnaryOperator o e => UnaryOperator o (f e)
  | ConditionalOperator c t e => ConditionalOperator (f c) (f t) (f e)
  | ParenExpr e => ParenExpr (f e)
  | ImplicitCastExpr k e => ImplicitCastExpr k (f e)
  | CStyleCastExpr k e => CStyleCastExpr k (f e)
  | OtherCastExpr k e => OtherCastExpr k (f e)
  | DeclRefExpr d n e => DeclRefExpr d n e
  | IntegerLiteral v => IntegerLiteral v
  | FloatingLiteral v => FloatingLiteral v
  | CharacterLiteral v => CharacterLiteral v
  | StringLiteral b => StringLiteral b
  | CXXBoolLiteralExpr b => CXXBoolLiteralExpr b
  | ObjCBoolLiteralExpr b => ObjCBoolLiteralExpr b
  | CXXThrowExpr e => CXXThrowExpr (option_map f e)
  | CXXDeleteExpr e => CXXDeleteExpr (f e)
  | MemberExpr a b => MemberExpr a (f b)
  | CallExpr d c args => CallExpr d (f c) (map f args)
  | ObjCMessageExpr m r args => ObjCMessageExpr m (option_map f r) (map f args)
  | ObjCIvarRefExpr n i b => ObjCIvarRefExpr n i (f b)
  | ObjCPropertyRefExpr s i j b => ObjCPropertyRefExpr s i j (option_map f b)
  | ExprWithCleanups e => ExprWithCleanups (f e)
  | OtherExpr l => OtherExpr (map f l)
  | VarDecl v i => VarDecl v (option_map f i)
  | FunctionDecl fi ps b => FunctionDecl fi (map f ps) (option_map f b)
  | ObjCMethodDecl m ps b => ObjCMethodDecl m (map f ps) (option_map f b)
  | CXXRecordDecl r l => CXXRecordDecl r (map f l)
  | ObjCContainerDecl c l => ObjCContainerDecl c (map f l)
  | OtherDecl l => OtherDecl (map f l)
  end.

(** RecursiveASTVisitor::TraverseStmt / TraverseDecl with a [Visit] function over a state:
    visit the node, then its sub-nodes; a [Visit] answering false aborts everything. *)
Fixpoint in_turn {S} (fs : list (S -> bool * S)) (s : S) : bool * S :=
  match fs with
  | [] => (true, s)
  | f :: rest => match f s with
                 | (true, s') => in_turn rest s'
                 | (false, s') => (false, s')
                 end
  end.
Fixpoint traverse {S} (visit : node -> S -> bool * S) (n : node) {struct n} : S -> bool * S :=
  match n with
  | Node i t sh => fun s =>
      match visit (Node i t sh) s with
      | (false, s') => (false, s')
      | (true, s') => in_turn (children (shape_map (traverse visit) sh)) s'
      end
  end.

(** Common uses: a visitor that only collects, one that only seeks. *)
Definition collect {B} (f : node -> list B) (n : node) : list B :=
  snd (traverse (fun m acc => (true, acc ++ f m)) n []).
Definition found (f : node -> bool) (n : node) : bool :=
  negb (fst (traverse (fun m (_ : unit) => (negb (f m), tt)) n tt)).

(** isa<Expr>: not for statements and declarations. *)
Definition isExpr (n : node) : bool :=
  match n_shape n with
  | BinaryOperator _ _ _ | UnaryOperator _ _ | ConditionalOperator _ _ _ | ParenExpr _
  | ImplicitCastExpr _ _ | CStyleCastExpr _ _ | OtherCastExpr _ _ | DeclRefExpr _ _ _
  | IntegerLiteral _ | FloatingLiteral _ | CharacterLiteral _ | StringLiteral _
  | CXXBoolLiteralExpr _ | ObjCBoolLiteralExpr _ | CXXThrowExpr _ | CXXDeleteExpr _
  | MemberExpr _ _ | CallExpr _ _ _ | ObjCMessageExpr _ _ _ | ObjCIvarRefExpr _ _ _
  | ObjCPropertyRefExpr _ _ _ _ | ExprWithCleanups _ | OtherExpr _ => true
  | _ => false
  end.

(** Decl::getBody and hasBody: for functions the body of the definition, whichever
    declaration carries it. *)
Definition getBody (d : node) : option node :=
  match n_shape d with
  | FunctionDecl _ _ b => b
  | ObjCMethodDecl _ _ b => b
  | _ => None
  end.

(** ** oclint-metrics *)

(** CyclomaticComplexityMetric.cpp:12-74: what one visit adds *)
Definition ccn_visit (n : node) : nat :=
  match n_shape n with
  | IfStmt _ _ _ _ | ForStmt _ _ _ _ _ | ObjCForCollectionStmt _ _ _ | WhileStmt _ _ _ | DoStmt _ _
  | CaseStmt _ _ | ObjCAtCatchStmt _ _ | CXXCatchStmt _ _ | ConditionalOperator _ _ _ => 1
  | BinaryOperator BO_LAnd _ _ | BinaryOperator BO_LOr _ _ => 1
  | _ => 0
  end.
(** CyclomaticComplexityMetric.cpp:5-10, 76-80; the counter is an unbounded number, it would
    take 2^31 nodes to overflow. *)
Definition getCyclomaticComplexity (d : node) : Z :=
  (Z.of_nat (snd (traverse (fun m c => (true, (c + ccn_visit m)%nat)) d 0%nat)) + 1)%Z.

(** [int] arithmetic: overflow is undefined. *)
Definition to_int (z : Z) : outcome Z := if in_intb z then Val z else UB.
Definition iadd (a b : outcome Z) : outcome Z := obind a (fun x => obind b (fun y => to_int (x + y)%Z)).
Definition imul (a b : outcome Z) : outcome Z := obind a (fun x => obind b (fun y => to_int (x * y)%Z)).
Notation "a +! b" := (iadd a b) (at level 50, left associativity).
Notation "a *! b" := (imul a b) (at level 40, left associativity).

(** NPathComplexityMetric.h:37-47, .cpp:109-131: nPath on Expr* *)
Fixpoint nPath_expr (n : node) : outcome Z :=
  match n with
  | Node _ _ s =>
      match s with
      | ConditionalOperator c t f => nPath_expr c +! nPath_expr t +! nPath_expr f +! Val 2%Z
      | BinaryOperator BO_LAnd l r | BinaryOperator BO_LOr l r =>
          Val 1%Z +! nPath_expr l +! nPath_expr r
      | ParenExpr e => nPath_expr e
      | ImplicitCastExpr _ e | CStyleCastExpr _ e | OtherCastExpr _ e => nPath_expr e
      | _ => Val 0%Z
      end
  end.
Definition nPath_optexpr (o : option node) : outcome Z :=
  match o with Some e => nPath_expr e | None => Val 0%Z end.
Definition isSwitchCase (n : node) : bool :=
  match n_shape n with CaseStmt _ _ | DefaultStmt _ => true | _ => false end.

(** The loop of NPathComplexityMetric.cpp:88-101, over "is a SwitchCase" and nPath of the
    statements. *)
Fixpoint switchGroups (l : list (bool * outcome Z)) (total internal : outcome Z) : outcome Z :=
  match l with
  | [] => total +! internal
  | (isCase, x) :: rest =>
      if isCase then switchGroups rest (total +! internal) x
      else switchGroups rest total (internal *! x)
  end.
(** NPathComplexityMetric.h:21-35, .cpp:5-107: nPath on Stmt*.  Sub-statements are not null
    except where Clang allows it. *)
Fixpoint nPath (n : node) : outcome Z :=
  match n with
  | Node _ _ s =>
      match s with
      | CompoundStmt l => fold_left imul (map nPath l) (Val 1%Z)
      | IfStmt _ c t e =>
          nPath_expr c +! nPath t +! match e with Some e => nPath e | None => Val 1%Z end
      | WhileStmt _ c b => nPath_expr c +! nPath b +! Val 1%Z
      | DoStmt b c => nPath_expr c +! nPath b +! Val 1%Z
      | ForStmt i _ c inc b =>
          match i with Some i => nPath i | None => Val 1%Z end
          +! nPath_optexpr c +! nPath_optexpr inc +! nPath b +! Val 1%Z
      | SwitchStmt _ c b _ =>
          match b with
          | Node _ _ (CompoundStmt l) =>
              switchGroups (map (fun x => (isSwitchCase x, nPath x)) l) (nPath_expr c) (Val 0%Z)
          | _ => nPath_expr c +! nPath b
          end
      | CaseStmt _ s => nPath s
      | DefaultStmt s => nPath s
      | ObjCForCollectionStmt _ _ b => nPath b +! Val 2%Z
      | _ => Val 1%Z
      end
  end.

(** NcssMetric.h:15-38, .cpp:5-109; null sub-statements (of broken code) are not represented. *)
Fixpoint ncss (n : node) : Z :=
  match n with
  | Node _ _ s =>
      match s with
      | NullStmt => 0%Z
      | CompoundStmt l => fold_left (fun acc x => (acc + x)%Z) (map ncss l) 0%Z
      | IfStmt _ _ t e => (1 + ncss t + match e with Some e => ncss e + 1 | None => 0 end)%Z
      | WhileStmt _ _ b => (1 + ncss b)%Z
      | DoStmt b _ => (2 + ncss b)%Z
      | ForStmt _ _ _ _ b => (1 + ncss b)%Z
      | ObjCForCollectionStmt _ _ b => (1 + ncss b)%Z
      | SwitchStmt _ _ b _ => (1 + ncss b)%Z
      | CaseStmt _ s => (1 + ncss s)%Z
      | DefaultStmt s => (1 + ncss s)%Z
      | CXXTryStmt b hs => (1 + ncss b + fold_left (fun acc x => (acc + x)%Z) (map ncss hs) 0%Z)%Z
      | CXXCatchStmt _ b => (1 + ncss b)%Z
      | ObjCAtTryStmt b cs f =>
          (1 + ncss b + fold_left (fun acc x => (acc + x)%Z) (map ncss cs) 0%Z
           + match f with Some f => ncss f | None => 0 end)%Z
      | ObjCAtCatchStmt _ b => (1 + ncss b)%Z
      | ObjCAtFinallyStmt b => (1 + ncss b)%Z
      | ObjCAtSynchronizedStmt _ b => (1 + ncss b)%Z
      | ObjCAutoreleasePoolStmt b => (1 + ncss b)%Z
      | _ => 1%Z
      end
  end.
(** NcssMetric.cpp:111-119 *)
Definition getNcssCount (d : node) : Z :=
  match getBody d with Some b => (ncss b + 1)%Z | None => 0%Z end.

(** StmtDepthMetric.h:12-37, .cpp:5-117; `if (d > max) max = d` is the maximum. *)
Definition upd (mx d : nat) : nat := if mx <? d then d else mx.
Fixpoint depth (n : node) : nat :=
  match n with
  | Node _ _ s =>
      match s with
      | CompoundStmt l => 1 + fold_left upd (map depth l) 0
      | IfStmt _ _ t e => let depthElse := match e with Some e => depth e | None => 0 end in
                          if depthElse <? depth t then depth t else depthElse
      | WhileStmt _ _ b => depth b
      | DoStmt b _ => depth b
      | ForStmt _ _ _ _ b => depth b
      | ObjCForCollectionStmt _ _ b => depth b
      | SwitchStmt _ _ b _ => depth b
      | CaseStmt _ s => depth s
      | DefaultStmt s => depth s
      | CXXTryStmt b hs => fold_left upd (map depth hs) (depth b)
      | CXXCatchStmt _ b => depth b
      | ObjCAtTryStmt b cs f =>
          let maxDepth := fold_left upd (map depth cs) (depth b) in
          let depthFinally := match f with Some f => depth f | None => 0 end in
          if depthFinally <? maxDepth then maxDepth else depthFinally
      | ObjCAtCatchStmt _ b => depth b
      | ObjCAtFinallyStmt b => depth b
      | ObjCAtSynchronizedStmt _ b => depth b
      | ObjCAutoreleasePoolStmt b => depth b
      | _ => 0
      end
  end.
