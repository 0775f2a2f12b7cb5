(** * Specification vocabulary for the rules on variables *)
From Verif Require Import Base ModelConfig ModelAST ModelRules SpecFilter SpecAST SpecRules.

Definition variable_named (n : node) (name : str) : Prop := exists v i, n_shape n = VarDecl v i /\ v_name v = name.
Definition size (s : str) : Z := Z.of_nat (length s).
Definition length_message (shown name kind : str) (limit : Z) : str :=
  $"Length of variable name `" ++ shown ++ $"` is " ++ show_Z (size name) ++ $", which is " ++ kind
  ++ $" than the threshold of " ++ show_Z limit.

(** ** Long names *)
(** [displayed limit name s]: the name itself unless more than ten longer than the limit; then
    its first limit + 3 characters, dots, and its last three. *)
Inductive displayed (limit : Z) : str -> str -> Prop :=
| di_whole : forall name, (size name <= limit + 10)%Z -> displayed limit name name
| di_short : forall name a b x y, (size name > limit + 10)%Z -> name = a ++ x -> name = y ++ b ->
    (limit + 3 < 0 /\ x = [] \/ size a = limit + 3)%Z -> size b = 3%Z -> displayed limit name (a ++ $"..." ++ b).
Definition long_name (limit : Z) (n : node) (m : str) : Prop :=
  exists name shown, variable_named n name /\ (size name > limit)%Z /\ displayed limit name shown
  /\ m = length_message shown name $"longer" limit.

(** ** Short names *)
Definition short_name (limit : Z) (n : node) (name : str) : Prop :=
  variable_named n name /\ (0 < size name < limit)%Z.
(** What is declared in the head of a loop or of a catch block. *)
Inductive head_of : node -> list node -> Prop :=
| ho_for : forall n s p c i b ds, n_shape n = ForStmt (Some s) p c i b -> n_shape s = DeclStmt ds -> head_of n ds
| ho_for_none : forall n s p c i b, n_shape n = ForStmt s p c i b ->
    (forall s' ds, s = Some s' -> n_shape s' <> DeclStmt ds) -> head_of n []
| ho_range : forall n i s d r b, n_shape n = CXXForRangeStmt i s r b -> n_shape s = DeclStmt [d] -> head_of n [d]
| ho_range_none : forall n i s r b, n_shape n = CXXForRangeStmt i s r b -> (forall d, n_shape s <> DeclStmt [d]) -> head_of n []
| ho_each : forall n s c b ds, n_shape n = ObjCForCollectionStmt s c b -> n_shape s = DeclStmt ds -> head_of n ds
| ho_each_none : forall n s c b, n_shape n = ObjCForCollectionStmt s c b -> (forall ds, n_shape s <> DeclStmt ds) -> head_of n []
| ho_catch : forall n d b, n_shape n = CXXCatchStmt (Some d) b -> head_of n [d]
| ho_catch_all : forall n b, n_shape n = CXXCatchStmt None b -> head_of n [].
(** [picked P l k]: [k] elements of [l] satisfy [P]. *)
Inductive picked (P : node -> Prop) : list node -> nat -> Prop :=
| pk_nil : picked P [] 0
| pk_yes : forall x l k, P x -> picked P l k -> picked P (x :: l) (S k)
| pk_no : forall x l k, ~ P x -> picked P l k -> picked P (x :: l) k.
Definition a_variable (n : node) : Prop := exists name, variable_named n name.
(** In the order of traversal, [d] comes after a head with no other head between, and is among
    its variables the one whose position equals the number of short names passed since. *)
Definition exempt (limit : Z) (before : list node) (d : node) : Prop :=
  exists pre h mid ds vs k, before = pre ++ h :: mid /\ head_of h ds /\ sublist_where a_variable ds vs
  /\ (forall m ds', In m mid -> ~ head_of m ds')
  /\ picked (fun m => exists name, short_name limit m name) mid k /\ nth_error vs k = Some d.
(** The elements of a list with what precedes them. *)
Fixpoint spots {A} (before l : list A) : list (list A * A) :=
  match l with [] => [] | x :: l' => (before, x) :: spots (before ++ [x]) l' end.

(** ** Unused variables *)
Definition separator (c : ascii) : Prop := In c [","; ";"; " "; "009"; "000"]%char.
(** A maximal part of the text without separators. *)
Definition word (text w : str) : Prop :=
  w <> [] /\ (forall c, In c w -> ~ separator c) /\ exists before after, text = before ++ w ++ after
  /\ (before = [] \/ exists b c, before = b ++ [c] /\ separator c)
  /\ (after = [] \/ exists c a, after = c :: a /\ separator c).
(** [base_name type b]: the type is qualifiers, [b], template arguments and what follows them. *)
Definition base_name (type b : str) : Prop :=
  exists q rest, type = q ++ b ++ rest /\ ~ In "<"%char (q ++ b) /\ (rest = [] \/ exists r, rest = "<"%char :: r)
  /\ ~ In " "%char b /\ (q = [] \/ exists q', q = q' ++ [" "%char]).
Definition unused_local (n : node) (v : varinfo) : Prop :=
  (exists i, n_shape n = VarDecl v i) /\ v_used v = false /\ v_referenced v = false /\ v_local v = true
  /\ v_name v <> [] /\ v_staticMember v = false /\ v_inTemplate v = false.

(** ** Unused parameters *)
(** What obliges a function to have the parameters it has. *)
Inductive obliged : context -> Prop :=
| ob_declaration : forall h v, obliged (CxFunction false h v)
| ob_no_body : forall t v, obliged (CxFunction t false v)
| ob_virtual : forall t h, obliged (CxFunction t h true)
| ob_interface : forall s p i, obliged (CxObjCMethod true s p i)
| ob_super : forall c p i, obliged (CxObjCMethod c true p i)
| ob_protocol : forall c s i, obliged (CxObjCMethod c s true i)
| ob_action : forall c s p, obliged (CxObjCMethod c s p true)
| ob_closure : obliged CxClosure
| ob_class : obliged CxRecord.
Definition unused_parameter (n : node) (v : varinfo) : Prop :=
  (exists i, n_shape n = VarDecl v i) /\ v_isParm v = true /\ v_used v = false /\ v_unusedAttr v = false
  /\ v_name v <> [] /\ v_inTemplate v = false /\ (forall c, In c (v_contexts v) -> ~ obliged c).

(** Per node with a message, in source order, one report at the node with its message. *)
Definition reports_messages (R : node -> str -> Prop) (root : node) (rs : list report) : Prop :=
  exists sel, sublist_where (fun n => exists m, R n m) (nodes root) sel
    /\ Forall2 (fun n r => exists m, R n m /\ r = Report n m) sel rs.
(** The head of [n] declares [ds], with nothing before. *)
Inductive plain_head : node -> list node -> Prop :=
| ph_for : forall n s p c i b ds, n_shape n = ForStmt (Some s) p c i b -> n_shape s = DeclStmt ds -> plain_head n ds
| ph_range : forall n s d r b, n_shape n = CXXForRangeStmt None s r b -> n_shape s = DeclStmt [d] -> plain_head n [d]
| ph_each : forall n s c b ds, n_shape n = ObjCForCollectionStmt s c b -> n_shape s = DeclStmt ds -> plain_head n ds
| ph_catch : forall n d b, n_shape n = CXXCatchStmt (Some d) b -> plain_head n [d].
(** No loop, catch block or short name strictly inside. *)
Definition quiet (limit : Z) (d : node) : Prop :=
  forall c m, In c (kids d) -> below c m -> (forall ds, ~ head_of m ds) /\ forall name, ~ short_name limit m name.
(** The text configured for a key. *)
Definition configured (c : cfg) (key default text : str) : Prop := stringForKey c key default = Val (text, c).
(** Unused local variables and parameters, with their messages. *)
Definition reported_unused (d u : str) (n : node) (m : str) : Prop :=
  exists v, unused_local n v /\ (~ exists b, base_name (v_canonicalType v) b /\ (word d b \/ word u b))
  /\ m = $"The local variable '" ++ v_name v ++ $"' is unused.".
Definition reported_parameter (n : node) (m : str) : Prop :=
  exists v, unused_parameter n v /\ m = $"The parameter '" ++ v_name v ++ $"' is unused.".
