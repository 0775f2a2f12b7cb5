(** * Specification vocabulary for syntax trees and metrics *)
From Verif Require Import Base ModelAST.

Definition kids (n : node) : list node := children (n_shape n).

(** [m] is [n] or lies anywhere inside it. *)
Inductive below : node -> node -> Prop :=
| below_self : forall n, below n n
| below_child : forall n c m, In c (kids n) -> below c m -> below n m.

(** [spread sub n l]: [l] lists [n] and all that is reached from it by [sub], depth first,
    parents before children, children in order, one entry per occurrence. *)
Inductive spread (sub : node -> list node) : node -> list node -> Prop :=
| spread_node : forall n ls, Forall2 (spread sub) (sub n) ls -> spread sub n (n :: concat ls).

(** All nodes of a tree in depth-first order. *)
Fixpoint nodes (n : node) : list node :=
  match n with Node i t s => Node i t s :: concat (children (shape_map nodes s)) end.

(** A visitor run on a list: left to right until told to stop. *)
Fixpoint visit_all {S} (visit : node -> S -> bool * S) (l : list node) (s : S) : bool * S :=
  match l with
  | [] => (true, s)
  | n :: rest => let '(go, s') := visit n s in if go then visit_all visit rest s' else (false, s')
  end.

(** Decision points of cyclomatic complexity. *)
Inductive decision_point : node -> Prop :=
| dp_if : forall i t pre c a e, decision_point (Node i t (IfStmt pre c a e))
| dp_for : forall i t a pre c inc b, decision_point (Node i t (ForStmt a pre c inc b))
| dp_each : forall i t e c b, decision_point (Node i t (ObjCForCollectionStmt e c b))
| dp_while : forall i t pre c b, decision_point (Node i t (WhileStmt pre c b))
| dp_do : forall i t b c, decision_point (Node i t (DoStmt b c))
| dp_case : forall i t v s, decision_point (Node i t (CaseStmt v s))
| dp_objc_catch : forall i t p b, decision_point (Node i t (ObjCAtCatchStmt p b))
| dp_cxx_catch : forall i t e b, decision_point (Node i t (CXXCatchStmt e b))
| dp_conditional : forall i t c a b, decision_point (Node i t (ConditionalOperator c a b))
| dp_and : forall i t l r, decision_point (Node i t (BinaryOperator BO_LAnd l r))
| dp_or : forall i t l r, decision_point (Node i t (BinaryOperator BO_LOr l r)).

(** ** NPath *)

Definition product (l : list Z) : Z := fold_right Z.mul 1%Z l.
Definition sum (l : list Z) : Z := fold_right Z.add 0%Z l.

(** The logical operators of a condition: those reached through logical operators,
    parentheses and casts. *)
Definition logic_sub (e : node) : list node :=
  match n_shape e with
  | ConditionalOperator c t f => [c; t; f]
  | BinaryOperator BO_LAnd l r | BinaryOperator BO_LOr l r => [l; r]
  | ParenExpr x | ImplicitCastExpr _ x | CStyleCastExpr _ x | OtherCastExpr _ x => [x]
  | _ => []
  end.
Definition logic_weight (e : node) : Z :=
  match n_shape e with
  | ConditionalOperator _ _ _ => 2
  | BinaryOperator BO_LAnd _ _ | BinaryOperator BO_LOr _ _ => 1
  | _ => 0
  end%Z.
Definition condition_operators (e : node) (k : Z) : Prop :=
  exists l, spread logic_sub e l /\ k = sum (map logic_weight l).

Definition case_label (n : node) : Prop :=
  (exists v s, n_shape n = CaseStmt v s) \/ exists s, n_shape n = DefaultStmt s.
(** [l] is a prefix without case labels followed by groups, each opened by a case label and
    containing no other. *)
Definition case_groups (l prefix : list node) (groups : list (list node)) : Prop :=
  l = prefix ++ concat groups
  /\ (forall x, In x prefix -> ~ case_label x)
  /\ forall g, In g groups -> exists c rest, g = c :: rest /\ case_label c
                              /\ forall x, In x rest -> ~ case_label x.

Definition compound (n : node) : Prop := exists l, n_shape n = CompoundStmt l.
(** The statements NPath distinguishes. *)
Definition branching (n : node) : Prop :=
  match n_shape n with
  | CompoundStmt _ | IfStmt _ _ _ _ | WhileStmt _ _ _ | DoStmt _ _ | ForStmt _ _ _ _ _
  | SwitchStmt _ _ _ _ | CaseStmt _ _ | DefaultStmt _ | ObjCForCollectionStmt _ _ _ => True
  | _ => False
  end.
Inductive optional {A} (P : A -> Z -> Prop) (default : Z) : option A -> Z -> Prop :=
| optional_some : forall a v, P a v -> optional P default (Some a) v
| optional_none : optional P default None default.

(** Nejmeh's recurrences. *)
Inductive paths : node -> Z -> Prop :=
| paths_block : forall i t l vs,
    Forall2 paths l vs -> paths (Node i t (CompoundStmt l)) (product vs)
| paths_if_else : forall i t pre c a b k u v,
    condition_operators c k -> paths a u -> paths b v ->
    paths (Node i t (IfStmt pre c a (Some b))) (k + u + v)
| paths_if : forall i t pre c a k u,
    condition_operators c k -> paths a u -> paths (Node i t (IfStmt pre c a None)) (k + u + 1)
| paths_while : forall i t pre c b k u,
    condition_operators c k -> paths b u -> paths (Node i t (WhileStmt pre c b)) (k + u + 1)
| paths_do : forall i t b c k u,
    condition_operators c k -> paths b u -> paths (Node i t (DoStmt b c)) (k + u + 1)
| paths_for : forall i t init pre c inc b ki k1 k2 u,
    optional paths 1 init ki ->
    optional condition_operators 0 c k1 -> optional condition_operators 0 inc k2 ->
    paths b u -> paths (Node i t (ForStmt init pre c inc b)) (ki + k1 + k2 + u + 1)
| paths_each : forall i t e c b u,
    paths b u -> paths (Node i t (ObjCForCollectionStmt e c b)) (u + 2)
| paths_switch : forall i t pre c j t' l cov k prefix groups vss,
    condition_operators c k -> case_groups l prefix groups ->
    Forall2 (Forall2 paths) groups vss ->
    paths (Node i t (SwitchStmt pre c (Node j t' (CompoundStmt l)) cov)) (k + sum (map product vss))
| paths_switch_unbraced : forall i t pre c b cov k u,
    condition_operators c k -> ~ compound b -> paths b u ->
    paths (Node i t (SwitchStmt pre c b cov)) (k + u)
| paths_case : forall i t v s u, paths s u -> paths (Node i t (CaseStmt v s)) u
| paths_default : forall i t s u, paths s u -> paths (Node i t (DefaultStmt s)) u
| paths_other : forall n, ~ branching n -> paths n 1.

(** Every switch with a braced body anywhere in [n] has a case label directly in it;
    resp. its body begins with one. *)
Definition switches_labelled (n : node) : Prop :=
  forall i t pre c j t' l cov, below n (Node i t (SwitchStmt pre c (Node j t' (CompoundStmt l)) cov)) ->
    exists x, In x l /\ case_label x.
Definition switches_start_with_label (n : node) : Prop :=
  forall i t pre c j t' l cov, below n (Node i t (SwitchStmt pre c (Node j t' (CompoundStmt l)) cov)) ->
    exists x rest, l = x :: rest /\ case_label x.

(** ** NCSS and depth *)

(** The statements a control statement controls. *)
Definition controlled (n : node) : list node :=
  match n_shape n with
  | CompoundStmt l => l
  | IfStmt _ _ t e => t :: opt e
  | WhileStmt _ _ b | DoStmt b _ | ForStmt _ _ _ _ b | ObjCForCollectionStmt _ _ b
  | SwitchStmt _ _ b _ | CaseStmt _ b | DefaultStmt b | CXXCatchStmt _ b | ObjCAtCatchStmt _ b
  | ObjCAtFinallyStmt b | ObjCAtSynchronizedStmt _ b | ObjCAutoreleasePoolStmt b => [b]
  | CXXTryStmt b hs => b :: hs
  | ObjCAtTryStmt b cs f => b :: cs ++ opt f
  | _ => []
  end.
(** What a statement counts for itself: braces and lone semicolons nothing, do (for its
    while) and if with else one extra. *)
Definition own_ncss (n : node) : Z :=
  match n_shape n with
  | NullStmt | CompoundStmt _ => 0
  | IfStmt _ _ _ (Some _) | DoStmt _ _ => 2
  | _ => 1
  end%Z.

(** A path downwards through controlled statements, and the braces on it. *)
Inductive control_path : node -> list node -> Prop :=
| cp_stop : forall n, control_path n [n]
| cp_step : forall n m p, In m (controlled n) -> control_path m p -> control_path n (n :: p).
Definition is_brace (n : node) : bool := match n_shape n with CompoundStmt _ => true | _ => false end.
Definition braces (p : list node) : nat := length (filter is_brace p).
