(** * Specification vocabulary for the convention rules *)
From Verif Require Import Base ModelAST ModelRules SpecFilter SpecAST SpecRules SpecExec.

(** ** Case groups of a switch body *)
Definition case_or_default (n : node) : Prop :=
  (exists v m, n_shape n = CaseStmt v m) \/ (exists m, n_shape n = DefaultStmt m).
(** Statements that leave a case group. *)
Inductive leaving : node -> Prop :=
| lv_break : forall n, n_shape n = BreakStmt -> leaving n
| lv_continue : forall n, n_shape n = ContinueStmt -> leaving n
| lv_return : forall n v, n_shape n = ReturnStmt v -> leaving n
| lv_throw : forall n e, n_shape n = CXXThrowExpr e -> leaving n
| lv_objc_throw : forall n e, n_shape n = ObjCAtThrowStmt e -> leaving n.
Definition contains_leaving (n : node) : Prop := exists m, below n m /\ leaving m.
(** A block, or a full expression whose temporaries are cleaned up. *)
Definition block_or_cleanup (n : node) : Prop :=
  (exists l, n_shape n = CompoundStmt l) \/ (exists e, n_shape n = ExprWithCleanups e).
(** A group: a labelled statement of the body and the unlabelled ones after it. *)
Definition group := (node * list node)%type.
Definition group_ok (g : group) : Prop := case_or_default (fst g) /\ Forall (fun m => ~ case_or_default m) (snd g).
Definition grouped (l lead : list node) (gs : list group) : Prop :=
  l = lead ++ concat (map (fun g => fst g :: snd g) gs)
  /\ Forall (fun m => ~ case_or_default m) lead /\ Forall group_ok gs.
(** The rule finds a leaving statement in the group: anywhere in the labelled statement, or as a
    later statement of the group or anywhere inside a later block. *)
Definition terminated (g : group) : Prop :=
  contains_leaving (fst g)
  \/ exists r, In r (snd g) /\ (leaving r \/ (block_or_cleanup r /\ contains_leaving r)).

(** ** Labels of a switch *)
Definition is_default (n : node) : Prop := exists m, n_shape n = DefaultStmt m.
Definition is_case (n : node) : Prop := exists v m, n_shape n = CaseStmt v m.
(** [own_label n d]: case or default label [d] is in [n], not inside the body of a nested switch. *)
Inductive own_label : node -> node -> Prop :=
| own_here : forall n, case_or_default n -> own_label n n
| own_sub : forall n c d, ~ is_switch n -> In c (kids n) -> own_label c d -> own_label n d
| own_head : forall n p c b x k d, n_shape n = SwitchStmt p c b x -> In k (p ++ [c]) -> own_label k d -> own_label n d.
(** The same in source order. *)
Fixpoint labels (n : node) : list node :=
  match n with
  | Node i ty s =>
      match s with
      | CaseStmt v sub => Node i ty (CaseStmt v sub) :: labels v ++ labels sub
      | DefaultStmt sub => Node i ty (DefaultStmt sub) :: labels sub
      | SwitchStmt p c _ _ => concat (map labels p) ++ labels c
      | _ => concat (children (shape_map labels s))
      end
  end.
(** No label directly behind a default label. *)
Definition default_bears_no_label (n : node) : Prop :=
  forall d m, own_label n d -> n_shape d = DefaultStmt m -> labels m = [].
(** [d] is the default label of [sw], and case labels follow it. *)
Definition default_before_case (sw d : node) : Prop :=
  exists p c b x before after, n_shape sw = SwitchStmt p c b x /\ labels b = before ++ d :: after
    /\ is_default d /\ after <> [] /\ Forall is_case after.

Definition is_label (n : node) : Prop := exists l m, n_shape n = LabelStmt l m.

(** ** Others *)
Definition negated (c : node) : Prop :=
  (exists l r, n_shape c = BinaryOperator BO_NE l r) \/ (exists e, n_shape c = UnaryOperator UO_LNot e).
Inductive two_way : node -> node -> Prop :=
| tw_if : forall n p c t e, n_shape n = IfStmt p c t (Some e) -> two_way n c
| tw_choice : forall n c t f, n_shape n = ConditionalOperator c t f -> two_way n c.

Inductive plain_loop : node -> node -> Prop :=
| pl_for : forall n i p c s b, n_shape n = ForStmt i p c s b -> plain_loop n b
| pl_while : forall n p c b, n_shape n = WhileStmt p c b -> plain_loop n b
| pl_do : forall n b c, n_shape n = DoStmt b c -> plain_loop n b.
Inductive loop_with_body : node -> node -> Prop :=
| lb_plain : forall n b, plain_loop n b -> loop_with_body n b
| lb_forin : forall n e c b, n_shape n = ObjCForCollectionStmt e c b -> loop_with_body n b.
Inductive interrupts : node -> Prop :=
| ir_break : forall n, n_shape n = BreakStmt -> interrupts n
| ir_continue : forall n, n_shape n = ContinueStmt -> interrupts n
| ir_return : forall n v, n_shape n = ReturnStmt v -> interrupts n
| ir_goto : forall n l, n_shape n = GotoStmt l -> interrupts n
| ir_computed : forall n e, n_shape n = IndirectGotoStmt e -> interrupts n.
Definition branching (n : node) : Prop :=
  n_shape n = BreakStmt \/ n_shape n = ContinueStmt \/ exists v, n_shape n = ReturnStmt v.
(** [m] is an if without else of more than [T] lines: the last statement of the loop [n], or the
    statement before the final jump of the block [n]. *)
Definition could_exit_early (lines : node -> Z) (T : Z) (n m : node) : Prop :=
  (exists p c t, n_shape m = IfStmt p c t None) /\ (T < lines m)%Z
  /\ ((exists b, plain_loop n b
         /\ ((exists l, n_shape b = CompoundStmt (l ++ [m])) \/ (b = m /\ forall l, n_shape b <> CompoundStmt l)))
      \/ (exists l j, n_shape n = CompoundStmt (l ++ [m; j]) /\ interrupts j)).

(** Assignment [x = …] to something called like a named parameter. *)
Definition assigns_parameter_name (params : list node) (n : node) : Prop :=
  exists l r d name en, n_shape n = BinaryOperator BO_Assign l r /\ n_shape l = DeclRefExpr d name en
    /\ name <> [] /\ exists p vi ini, In p params /\ n_shape p = VarDecl vi ini /\ v_name vi = name.
Inductive callable : node -> list node -> Prop :=
| ca_function : forall n i ps b, n_shape n = FunctionDecl i ps b -> callable n ps
| ca_method : forall n i ps b, n_shape n = ObjCMethodDecl i ps b -> callable n ps.

(** Classes *)
Definition cls_defined (c : cxxrecord) : bool := match c with CxxRecord _ _ d _ _ _ => d end.
Definition cls_polymorphic (c : cxxrecord) : bool := match c with CxxRecord _ _ _ p _ _ => p end.
Definition cls_name (c : cxxrecord) : str := match c with CxxRecord _ n _ _ _ _ => n end.
Definition cls_public_base (c b : cxxrecord) : Prop :=
  match c with CxxRecord _ _ _ _ _ bases => In (true, Some b) bases end.
(** The destructor can neither be called through the base safely nor is it out of reach. *)
Definition unsafe_destructor (c : cxxrecord) : Prop :=
  match c with
  | CxxRecord _ _ _ _ None _ => True
  | CxxRecord _ _ _ _ (Some (v, p)) _ => v = false /\ p = false
  end.
(** Bases reached over public bases; beyond a polymorphic or incomplete base none is considered. *)
Inductive considered_base : cxxrecord -> cxxrecord -> Prop :=
| cb_direct : forall c b, cls_public_base c b -> cls_defined b = true -> considered_base c b
| cb_through : forall c b d, considered_base c b -> cls_polymorphic b = false -> cls_public_base b d ->
    cls_defined d = true -> considered_base c d.

(** Ivar assignment *)
Definition ivar_named (n : node) (name : str) : Prop := exists i b, n_shape n = ObjCIvarRefExpr name i b.
Definition assignment (n l : node) : Prop :=
  exists o r, n_shape n = BinaryOperator o l r /\ (o = BO_Assign \/ o = BO_CompoundAssign).
(** The accessors of an ivar: its name without underscores, and "set" + that name capitalised + ":". *)
Definition without_underscores (a b : str) : Prop := sublist_where (fun c => c <> "_"%char) a b.
Inductive capitalised : str -> str -> Prop :=
| cap_nil : capitalised [] []
| cap_cons : forall c s, capitalised (c :: s) (toupper c :: s).
Definition accessor_or_init (selector ivar : str) : Prop :=
  (exists g, without_underscores ivar g /\ (selector = g \/ exists G, capitalised g G /\ selector = $"set" ++ G ++ $":"))
  \/ exists rest, selector = $"init" ++ rest.
(** The instance variables referred to in the assigned part of an assignment, in the order of
    the traversal. *)
Definition ivars_assigned (n : node) : list (node * str) :=
  flat_map (fun m => match n_shape m with
     | BinaryOperator BO_Assign l _ | BinaryOperator BO_CompoundAssign l _ =>
         flat_map (fun k => match n_shape k with ObjCIvarRefExpr name _ _ => [(k, name)] | _ => [] end) (nodes l)
     | _ => [] end) (nodes n).
(** The switches reported as lacking a break, and how often: by the first case group that is not
    terminated. *)
Inductive missing_break_reports (n : node) : list report -> Prop :=
| mb_other : (forall p c b x l, n_shape n = SwitchStmt p c b x -> n_shape b <> CompoundStmt l) -> missing_break_reports n []
| mb_fine : forall p c b x l lead gs, n_shape n = SwitchStmt p c b x -> n_shape b = CompoundStmt l ->
    grouped l lead gs -> Forall terminated gs -> missing_break_reports n []
| mb_last : forall p c b x l lead gs g, n_shape n = SwitchStmt p c b x -> n_shape b = CompoundStmt l ->
    grouped l lead (gs ++ [g]) -> Forall terminated gs -> ~ terminated g -> missing_break_reports n [Report n []]
| mb_twice : forall p c b x l lead gs g g' gs', n_shape n = SwitchStmt p c b x -> n_shape b = CompoundStmt l ->
    grouped l lead (gs ++ g :: g' :: gs') -> Forall terminated gs -> ~ terminated g ->
    missing_break_reports n [Report n []; Report n []].
