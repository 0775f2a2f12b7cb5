(** * C71: feature envy; C98, C99: virtual defaults and private static members; C100-C104: the
      cocoa rules; C105, C106: the migration rules *)
From Coq Require Import Permutation.
From Verif Require Import Base BaseFacts ModelConfig ModelSource ModelAST ModelRules ModelRulesBasic ModelRulesVars ModelRulesObjC SpecFilter
  SpecSource SpecAST SpecRules SpecRulesVars SpecRulesObjC ProofFilter ProofSource ProofAST ProofRules ProofRulesVars ProofRulesObjC PropAST.
Local Arguments lit : simpl never.

(** Every node has its reports. *)
Lemma per_node_intro (P : node -> list report -> Prop) f root : (forall n, P n (f n)) -> reports_per_node P root (reports f root).
Proof.
  intros H. rewrite reports_nodes. exists (map f (nodes root)). split; [|now rewrite flat_map_concat_map].
  induction (nodes root); cbn; constructor; auto.
Qed.

(** ** C71 *)
(** Each method of a class is reported once per class it addresses more often than its own,
    whatever the order in which the counters are enumerated. *)
Theorem c71_exactly_envied : forall order root, (forall m, Permutation (order m) m) ->
  reports_per_node envy_reports root (reports (FeatureEnvy_visit order) root).
Proof. intros order root P. apply per_node_intro. intros n. now apply envy_node. Qed.
(** That order only permutes the reports. *)
Theorem c71_order_irrelevant : forall o1 o2 root, (forall m, Permutation (o1 m) m) -> (forall m, Permutation (o2 m) m) ->
  Permutation (reports (FeatureEnvy_visit o1) root) (reports (FeatureEnvy_visit o2) root).
Proof.
  intros o1 o2 root P1 P2. rewrite !reports_nodes. induction (nodes root) as [|n l IH]; [constructor|].
  cbn [flat_map]. apply Permutation_app; auto. unfold FeatureEnvy_visit. destruct (n_shape n); auto. apply Permutation_map.
  unfold analyzeObjC. destruct (om_class info); auto. unfold enviedClasses. apply Permutation_map.
  assert (F : forall (p : str * Z -> bool) a b, Permutation a b -> Permutation (filter p a) (filter p b)).
  { clear. intros p a b H. induction H; cbn; auto.
    - destruct (p x); auto.
    - destruct (p x), (p y); auto. apply perm_swap.
    - eapply perm_trans; eauto. }
  apply F. eapply perm_trans; [apply P1|apply Permutation_sym, P2].
Qed.
(** A method never envies its own class, nor anything if it addresses no other class. *)
Theorem c71_own_class_never : forall n s own c, method_of_class n s own -> envies n s c -> c <> own /\ exists m, below n m /\ addresses m c.
Proof.
  intros n s own c (mi & ps & b & S & E & O) (own' & k & k0 & (mi' & ps' & b' & S' & E' & O') & T & T0 & L).
  rewrite S in S'. injection S' as <- <- <-. rewrite O in O'. injection O' as <-. apply times_iff in T, T0. subst k k0. split.
  - intros ->. lia.
  - destruct (filter (addresseeIs c) (nodes n)) as [|x l] eqn:F; [cbn in L; lia|].
    assert (I : In x (filter (addresseeIs c) (nodes n))) by (rewrite F; left; reflexivity). apply filter_In in I as [I K].
    exists x. rewrite <- in_nodes, addresseeIs_iff. auto.
Qed.
(** Messages to super are not messages to self: a method that sends two of them and one to
    another object is said to message that object more than self. *)
Definition msg (recv : receiver) (iface : option str) : msginfo :=
  {| ms_selector := $"foo"; ms_receiver := recv; ms_implicit := false; ms_interface := iface; ms_method := None; ms_methodClass := None |}.
Definition meth (cls : option str) (body : list node) : node :=
  nd 1 (ObjCMethodDecl {| om_selector := $"go"; om_class := cls; om_overriding := false; om_overridden := []; om_bodyLines := 3 |} [] (Some (nd 2 (CompoundStmt body)))).
Definition ex_super_envy : node := meth (Some $"Own") [nd 3 (ObjCMessageExpr (msg RSuperInstance (Some $"Base")) None []);
    nd 4 (ObjCMessageExpr (msg RSuperInstance (Some $"Base")) None []); nd 5 (ObjCMessageExpr (msg RInstance (Some $"Other")) (Some (var 6)) [])].
Theorem c71_super_refuted : exists n, (forall order, (forall m, Permutation (order m) m) ->
    reports (FeatureEnvy_visit order) n = [Report n $"Method go messages Other more than self."])
  /\ exists a b i j, below n a /\ below n b /\ n_id a <> n_id b /\ message a i /\ message b j /\ ms_receiver i = RSuperInstance /\ ms_receiver j = RSuperInstance.
Proof.
  exists ex_super_envy. split.
  - intros order P. assert (E : order [($"Other", 1%Z)] = [($"Other", 1%Z)]).
    { apply Permutation_length_1_inv, Permutation_sym, P. }
    rewrite reports_nodes. cbn -[lit FeatureEnvy_visit]. unfold FeatureEnvy_visit at 1. cbn [n_shape ex_super_envy meth nd]. unfold analyzeObjC.
    cbn [om_class]. unfold enviedClasses.
    match goal with |- context [order ?m] => replace (order m) with (order [($"Other", 1%Z)]) by reflexivity end. rewrite E. reflexivity.
  - exists (nd 3 (ObjCMessageExpr (msg RSuperInstance (Some $"Base")) None [])), (nd 4 (ObjCMessageExpr (msg RSuperInstance (Some $"Base")) None [])). do 2 eexists.
    rewrite <- !in_nodes. split; [cbn; auto|]. split; [cbn; auto|]. split; [discriminate|]. split; [do 2 eexists; reflexivity|]. split; [do 2 eexists; reflexivity|]. split; reflexivity.
Qed.
Example c71_case : map rp_message (reports (FeatureEnvy_visit (fun m => m))
  (meth (Some $"Own") [nd 3 (ObjCMessageExpr (msg (RClass $"A") None) None []); nd 4 (ObjCPropertyRefExpr true (Some $"Own") None None);
     nd 5 (ObjCMessageExpr (msg RInstance (Some $"A")) (Some (nd 6 (ObjCIvarRefExpr $"x" (Some $"B") (var 7)))) []);
     nd 8 (ObjCPropertyRefExpr false (Some $"Own") (Some $"B") None); nd 9 (ObjCPropertyRefExpr false None (Some $"C") None)]))
  = [$"Method go messages A more than self."; $"Method go messages B more than self."].
Proof. reflexivity. Qed.
Example c71_case_orders : forall m : list (str * Z), Permutation (rev m) m.
Proof. intros. apply Permutation_sym, Permutation_rev. Qed.

(** ** C98, C99 *)
Theorem c98_exactly_virtual_defaults : forall root, reports_exactly virtual_with_default plainReport root (reports DefaultArguments_visit root).
Proof. intros root. apply reports_exactly_intro. intros n. apply default_node. Qed.
Theorem c99_exactly_private_static : forall root, reports_exactly private_static plainReport root (reports PrivateStatic_visit root).
Proof. intros root. apply reports_exactly_intro. intros n. apply static_node. Qed.
Definition ex_var (static priv def : bool) : varinfo :=
  {| v_isParm := def; v_name := $"x"; v_used := true; v_referenced := true; v_local := false; v_staticMember := static; v_private := priv;
     v_unusedAttr := false; v_defaultArg := def; v_canonicalType := $"int"; v_inTemplate := false; v_contexts := [] |}.
Definition ex_method (virtual static priv : bool) : funinfo :=
  {| f_name := $"f"; f_method := Some {| cm_virtual := virtual; cm_static := static; cm_private := priv; cm_inRecord := true |}; f_isDefinition := false; f_bodyLines := 0 |}.
Definition ex_members : node := nd 1 (OtherDecl [
  nd 2 (FunctionDecl (ex_method true false false) [nd 3 (VarDecl (ex_var false false false) None); nd 4 (VarDecl (ex_var false false true) (Some (var 5)))] None);
  nd 6 (FunctionDecl (ex_method false true true) [nd 7 (VarDecl (ex_var false false true) None)] None);
  nd 8 (VarDecl (ex_var true true false) None); nd 9 (VarDecl (ex_var true false false) None);
  nd 10 (FunctionDecl (ex_method true false true) [] None)]).
Example c98_case : map (fun r => n_id (rp_node r)) (reports DefaultArguments_visit ex_members) = [2].
Proof. reflexivity. Qed.
Example c99_case : map (fun r => n_id (rp_node r)) (reports PrivateStatic_visit ex_members) = [6; 8].
Proof. reflexivity. Qed.

(** ** C100 *)
Theorem c100_exactly_missing_hash : forall root,
  reports_exactly equal_without_hash (fun n => Report n $"If you override isEqual you must override hash too.") root (reports IsEqualHash_visit root).
Proof. intros root. apply reports_exactly_intro. intros n. apply equal_node. Qed.
Definition container (k : objckind) (ms : list (str * bool)) (cls : list str) (sup : option (str * list (str * bool * decl))) : objccontainer :=
  {| oc_kind := k; oc_name := $"C"; oc_lines := 1; oc_ivars := 0; oc_methods := ms; oc_classes := cls; oc_superMethods := sup |}.
(** A category's implementation may override isEqual: without hash. *)
Theorem c100_category_refuted : exists n o l, n_shape n = ObjCContainerDecl o l /\ oc_kind o = OKCategoryImpl
  /\ In ($"isEqual:", true) (oc_methods o) /\ ~ In ($"hash", true) (oc_methods o) /\ reports IsEqualHash_visit n = [].
Proof.
  exists (nd 1 (ObjCContainerDecl (container OKCategoryImpl [($"isEqual:", true)] [] None) [])). do 2 eexists.
  split; [reflexivity|]. split; [reflexivity|]. split; [left; reflexivity|]. split; [|reflexivity]. intros [H|[]]. discriminate.
Qed.
Example c100_case : map (fun ms => length (reports IsEqualHash_visit (nd 1 (ObjCContainerDecl (container OKImplementation ms [] None) []))))
  [[($"foo", true); ($"isEqual:", true)]; [($"hash", true); ($"isEqual:", true)]; [($"hash", false); ($"isEqual:", true)]; [($"isEqual:", false)]] = [1; 0; 1; 0].
Proof. reflexivity. Qed.

(** ** C101 *)
Theorem c101_exactly_forgotten : forall root, reports_messages forgets_super root (reports MustCallSuper_visit root).
Proof. intros root. apply reports_messages_intro. intros n. apply super_node. Qed.
Definition enforcing_decl (what : string) : decl := Decl [$"other"; $"oclint:enforce[" ++ $what ++ $"]"] None.
Definition override (overridden : list decl) (body : option node) : node :=
  nd 1 (ObjCMethodDecl {| om_selector := $"load"; om_class := Some $"C"; om_overriding := true; om_overridden := overridden; om_bodyLines := 3 |} [] body).
Definition super_send (recv : receiver) : node :=
  nd 3 (ObjCMessageExpr {| ms_selector := $"load"; ms_receiver := recv; ms_implicit := false; ms_interface := Some $"B"; ms_method := None; ms_methodClass := None |} None []).
(** A class method that calls super is reported nonetheless ... *)
Theorem c101_class_method_refuted : exists n m i, below n m /\ message m i /\ ms_receiver i = RSuperClass /\ must_call_super n (ms_selector i)
  /\ reports MustCallSuper_visit n = [Report n $"overridden method load must call super"].
Proof.
  exists (override [enforcing_decl "base method"] (Some (nd 2 (CompoundStmt [super_send RSuperClass])))), (super_send RSuperClass). eexists.
  rewrite <- in_nodes. split; [cbn; auto|]. split; [do 2 eexists; reflexivity|]. split; [reflexivity|]. split; [|reflexivity].
  do 3 eexists. split; [reflexivity|]. split; [reflexivity|]. split; [reflexivity|]. eexists. split; [left; reflexivity|].
  exists ($"oclint:enforce[" ++ $"base method" ++ $"]"). split; [right; left; reflexivity|]. exists []. reflexivity.
Qed.
(** ... and so is a declaration, which has no body to call it in. *)
Theorem c101_declaration_refuted : exists n mi ps, n_shape n = ObjCMethodDecl mi ps None /\ reports MustCallSuper_visit n = [Report n $"overridden method load must call super"].
Proof. exists (override [enforcing_decl "base method"] None). do 2 eexists. split; reflexivity. Qed.
Example c101_case : map (fun b => length (reports MustCallSuper_visit (override [Decl [] None; enforcing_decl "base method"] (Some (nd 2 (CompoundStmt b))))))
  [[]; [super_send RSuperInstance]; [super_send RInstance]; [nd 4 (IfStmt [] (var 5) (super_send RSuperInstance) None)]] = [1; 0; 1; 0].
Proof. reflexivity. Qed.

(** ** C102 *)
Theorem c102_exactly_prohibited : forall root, reports_messages prohibited root (reports ProhibitedCall_visit root).
Proof. intros root. apply reports_messages_intro. intros n. apply prohibited_node. Qed.
(** A call has at most one message; the mark may be on any declaration consulted. *)
Theorem c102_one_message : forall n a b, prohibited n a -> prohibited n b -> a = b.
Proof.
  intros n a b (k & s & d & x & C & M & ->) (k' & s' & d' & x' & C' & M' & ->).
  destruct (call_det _ _ _ _ _ _ _ C C') as (-> & -> & ->). now rewrite (note_fun _ _ _ _ M M').
Qed.
Theorem c102_where_marks_are : forall d what, (exists note, marked_with d what note) <->
  exists l a, consulted d l /\ In a l /\ enforcing what a.
Proof.
  intros d what. transitivity (marked d what).
  - destruct (enforce_note d what) as [(note & E & M)|[E N]].
    + split; [intros _|eauto]. apply (enforce_iff d what []). now rewrite E.
    + split; [intros (note & H); destruct (N _ H)|]. intros H. apply (enforce_iff d what []) in H. rewrite E in H. discriminate.
  - unfold marked. split.
    + intros (a & H & K). apply searched_consulted in H as (l & H & I). eauto.
    + intros (l & a & H & I & K). exists a. split; auto. apply searched_consulted. eauto.
Qed.
(** Marks for enforcement are no suppressions of the same name, and conversely. *)
Theorem c102_not_a_suppression : forall what a, enforcing what a -> a <> $"oclint:suppress" /\ ~ hides_rule what [a].
Proof.
  intros what a (rest & ->). split; [discriminate|]. intros (r & [H|[]]). discriminate.
Qed.
Definition ex_prohibited (note : string) : decl :=
  Decl [$"x"] (Some (Method true (Some [$"oclint:enforce[prohibited method]" ++ $note]) InCategory)).
Example c102_case : map (fun note => map rp_message (reports ProhibitedCall_visit (nd 1 (OtherStmt
    [nd 2 (CallExpr (Some ($"strcpy", ex_prohibited note)) (var 3) []); nd 4 (ObjCMessageExpr {| ms_selector := $"run:"; ms_receiver := RInstance; ms_implicit := false;
       ms_interface := None; ms_method := Some (ex_prohibited note); ms_methodClass := None |} (Some (var 5)) [])]))))
  [""; "[strlcpy]"; "[open"]%string =
  [[$"calling prohibited function strcpy"; $"calling prohibited method run:"];
   [$"calling prohibited function strcpy instead use strlcpy"; $"calling prohibited method run: instead use strlcpy"];
   [$"calling prohibited function strcpy"; $"calling prohibited method run:"]].
Proof. reflexivity. Qed.

(** ** C103 *)
(** The rule ends normally unless a trespassing message calls a method of a protocol; if it
    does, its reports are the trespassing messages of each class implementation. *)
Theorem c103_defined : forall root,
  (exists rs, reports_outcome ProtectedMethod_visit root = Val rs) <-> forall n, below root n -> ~ classless_trespass n.
Proof.
  intros root. split.
  - intros (rs & H) n B C. apply outcome_nodes in H as (rss & F & _). apply in_nodes in B.
    induction F as [|x r l rss V F IH]; [destruct B|]. destruct B as [->|B]; [|auto].
    destruct (protected_node n) as [[N _]|[_ E]]; [auto|congruence].
  - intros H. assert (G : forall l, (forall n, In n l -> ~ classless_trespass n) -> exists rss, Forall2 (fun n r => ProtectedMethod_visit n = Val r) l rss).
    { induction l as [|x l IH]; intros K; [exists []; constructor|]. destruct IH as (rss & F); [intros; apply K; right; auto|].
      destruct (protected_node x) as [[_ (rs & E & _)]|[C _]]; [|destruct (K x (or_introl eq_refl) C)]. exists (rs :: rss). constructor; auto. }
    destruct (G (nodes root)) as (rss & F); [intros n Hn; apply H; now apply in_nodes|]. exists (concat rss). apply outcome_nodes. eauto.
Qed.
Theorem c103_reports : forall root rs, reports_outcome ProtectedMethod_visit root = Val rs -> reports_per_node trespass_reports root rs.
Proof.
  intros root rs H. apply outcome_nodes in H as (rss & F & ->). exists rss. split; [|reflexivity].
  induction F as [|x r l rss V F IH]; constructor; auto. destruct (protected_node x) as [[_ (r' & E & T)]|[_ E]]; congruence.
Qed.
Definition guarded (iface : str) (owner : option str) : node :=
  nd 3 (ObjCMessageExpr {| ms_selector := $"secret"; ms_receiver := RInstance; ms_implicit := false; ms_interface := Some iface;
    ms_method := Some (enforcing_decl "protected method"); ms_methodClass := owner |} (Some (var 4)) []).
Definition implementing (classes : list str) (body : list node) : node :=
  nd 1 (ObjCContainerDecl (container OKImplementation [] classes None) [nd 2 (ObjCMethodDecl {| om_selector := $"go"; om_class := hd_error classes; om_overriding := false;
    om_overridden := []; om_bodyLines := 1 |} [] (Some (nd 5 (CompoundStmt body))))]).
Example c103_case : map (fun i => match reports_outcome ProtectedMethod_visit (implementing [$"Mid"; $"Base"] [guarded i (Some $"Base")]) with
    | Val rs => map rp_message rs | _ => [] end) [$"Mid"; $"Base"; $"Elsewhere"]
  = [[]; []; [$"calling protected method secret from outside Base and its subclasses"]].
Proof. reflexivity. Qed.
(** A protected method of a protocol makes the rule read a null pointer. *)
Theorem c103_protocol_refuted : exists root, reports_outcome ProtectedMethod_visit root = UB.
Proof. exists (implementing [$"Mid"] [guarded $"Elsewhere" None]). reflexivity. Qed.
(** A class may not even call its own protected method on an object typed as a subclass. *)
Theorem c103_own_method_refuted : exists n o m i c, class_implementation n o /\ hd_error (oc_classes o) = Some c /\ below n m /\ message m i
  /\ ms_methodClass i = Some c /\ reports_outcome ProtectedMethod_visit n
    = Val [Report m $"calling protected method secret from outside Base and its subclasses"].
Proof.
  exists (implementing [$"Base"] [guarded $"Derived" (Some $"Base")]), (container OKImplementation [] [$"Base"] None), (guarded $"Derived" (Some $"Base")). do 2 eexists.
  split; [eexists; split; reflexivity|]. split; [reflexivity|]. rewrite <- in_nodes. split; [cbn; auto|]. split; [do 2 eexists; reflexivity|]. split; reflexivity.
Qed.
(** Outside class implementations every call passes. *)
Definition ex_function : node := nd 1 (FunctionDecl {| f_name := $"main"; f_method := None; f_isDefinition := true; f_bodyLines := 1 |} []
  (Some (nd 2 (CompoundStmt [guarded $"Base" (Some $"Base")])))).
Theorem c103_function_refuted : exists n m i f ps b, n_shape n = FunctionDecl f ps b /\ below n m /\ trespasses [] m i
  /\ reports_outcome ProtectedMethod_visit n = Val [].
Proof.
  exists ex_function, (guarded $"Base" (Some $"Base")). do 4 eexists. split; [reflexivity|]. rewrite <- in_nodes. split; [cbn; auto|].
  split; [|reflexivity]. split; [do 2 eexists; reflexivity|]. split.
  - eexists. split; [reflexivity|]. exists ($"oclint:enforce[" ++ $"protected method" ++ $"]"). split; [right; left; reflexivity|]. exists []. reflexivity.
  - eexists. split; [reflexivity|]. intros [].
Qed.

(** ** C104 *)
Theorem c104_exactly_unimplemented : forall root, reports_per_node abstract_reports root (reports SubclassMustImplement_visit root).
Proof. intros root. apply per_node_intro. apply abstract_node. Qed.
Example c104_case : map rp_message (reports SubclassMustImplement_visit (nd 1 (ObjCContainerDecl (container OKImplementation [($"draw", true); ($"make", true)] []
    (Some ($"Shape", [($"draw", true, enforcing_decl "abstract method"); ($"area", true, enforcing_decl "abstract method"); ($"name", true, Decl [] None);
       ($"make", false, enforcing_decl "abstract method")]))) [])))
  = [$"subclasses of Shape must implement area"; $"subclasses of Shape must implement make"].
Proof. reflexivity. Qed.

(** ** C105, C106 *)
Theorem c105_exactly_boxable : forall root, reports_exactly boxable plainReport root (reports BoxedExpressions_visit root).
Proof. intros root. apply reports_exactly_intro. intros n. apply boxed_node. Qed.
Theorem c105_exactly_number_literals : forall root, reports_exactly number_literal plainReport root (reports NSNumberLiterals_visit root).
Proof. intros root. apply reports_exactly_intro. intros n. apply literal_node. Qed.
Theorem c105_exactly_container_literals : forall root, reports_exactly container_literal plainReport root (reports ContainerLiterals_visit root).
Proof. intros root. apply reports_exactly_intro. intros n. apply container_node. Qed.
Theorem c105_exactly_subscripts : forall root, reports_exactly subscriptable plainReport root (reports ObjectSubscripting_visit root).
Proof. intros root. apply reports_exactly_intro. intros n. apply subscript_node. Qed.

(** No two of the four rules report the same message. *)
Lemma makers s t : number_maker s t \/ float_maker s t -> s <> $"numberWithChar:" /\ s <> $"numberWithBool:".
Proof. intros [[]|[]]; split; discriminate. Qed.
Lemma int_not_float s t t' : number_maker s t -> float_maker s t' -> False.
Proof. intros A B. inversion A; subst; inversion B. Qed.
Lemma boxable_shape n : boxable n -> exists c s a, message_to n c s [a] /\ (c = $"NSNumber" \/ c = $"NSString")
  /\ (parenthesis a -> s <> $"numberWithBool:") /\ (forall k e v, n_shape a = ImplicitCastExpr k e -> n_shape e <> CharacterLiteral v)
  /\ (parenthesis a \/ (exists k e, n_shape a = ImplicitCastExpr k e) \/ exists d x y, n_shape a = DeclRefExpr d x y).
Proof.
  intros [m s a M P K|m a k e M S T P|m a d x M S T|m a k e M S T T' K]; do 3 eexists; (split; [exact M|]); (split; [auto|]).
  - split; [intros _; destruct K as [[-> _]|K]; [discriminate|apply (makers _ _ K)]|]. destruct P as (x & P).
    split; [intros; congruence|]. left. exists x. exact P.
  - split; [intros (x & H); congruence|]. split; [|eauto]. intros k' e' v H. rewrite S in H. injection H as <- <-. destruct P as (x & P). congruence.
  - split; [intros (y & H); congruence|]. split; [intros; congruence|]. right. right. eauto.
  - split; [intros (x & H); congruence|]. split; [|eauto]. intros k' e' v H. rewrite S in H. injection H as <- <-.
    destruct K as [(x & P)|(d & c & l & P)]; congruence.
Qed.
Lemma boxable_not_literal n : boxable n -> ~ number_literal n.
Proof.
  intros B (s & a & M & K). destruct (boxable_shape n B) as (c & s' & a' & M' & _ & P & Q & R).
  destruct (message_to_det _ _ _ _ _ _ _ M M') as (_ & <- & E). injection E as <-.
  destruct K as [(-> & k & e & v & A & A')|[(A & v & A')|[(A & v & A')|(-> & [(v & A)|(x & k & e & v & A & _)])]]].
  - eapply Q; eauto.
  - destruct R as [(x & R)|[(k & e & R)|(d & x & y & R)]]; congruence.
  - destruct R as [(x & R)|[(k & e & R)|(d & x & y & R)]]; congruence.
  - destruct R as [(x & R)|[(k & e & R)|(d & x & y & R)]]; congruence.
  - apply P; [|reflexivity]. exists x. exact A.
Qed.
Lemma subscript_selector n : subscriptable n -> forall c s l, message_to n c s l ->
  In s [$"objectAtIndex:"; $"objectAtIndexedSubscript:"; $"replaceObjectAtIndex:withObject:"; $"setObject:atIndexedSubscript:";
        $"objectForKey:"; $"objectForKeyedSubscript:"; $"setObject:forKey:"; $"setObject:forKeyedSubscript:"].
Proof.
  intros (i & r & k & e & args & S & _ & X) c s l (i' & r' & S' & _ & <-). rewrite S in S'. injection S' as <- <- <-.
  inversion X as [? K E|? K E|? K E|? K E]; subst; cbn [In] in *; tauto.
Qed.
Lemma boxable_selector n : boxable n -> exists c s l, message_to n c s l /\ (c = $"NSNumber" \/ c = $"NSString") /\
  In s [$"numberWithChar:"; $"numberWithBool:"; $"numberWithInt:"; $"numberWithUnsignedInt:"; $"numberWithLong:"; $"numberWithUnsignedLong:";
        $"numberWithLongLong:"; $"numberWithUnsignedLongLong:"; $"numberWithFloat:"; $"numberWithDouble:"; $"stringWithUTF8String:"].
Proof.
  intros [m s a M P K|m a k e M S T P|m a d x M S T|m a k e M S T T' K]; do 3 eexists; (split; [exact M|]); (split; [auto|]); cbn [In]; try tauto.
  destruct K as [[-> _]|[K|K]]; [tauto|inversion K; tauto|inversion K; tauto].
Qed.
Lemma literal_selector n : number_literal n -> exists s l, message_to n $"NSNumber" s l /\
  In s [$"numberWithChar:"; $"numberWithBool:"; $"numberWithInt:"; $"numberWithUnsignedInt:"; $"numberWithLong:"; $"numberWithUnsignedLong:";
        $"numberWithLongLong:"; $"numberWithUnsignedLongLong:"; $"numberWithFloat:"; $"numberWithDouble:"].
Proof.
  intros (s & a & M & K). do 2 eexists. split; [exact M|]. cbn [In].
  destruct K as [[-> _]|[[K _]|[[K _]|[-> _]]]]; [tauto|inversion K; tauto|inversion K; tauto|tauto].
Qed.
Lemma disjoint_lists (a b : list str) s : existsb (fun x => existsb (str_eqb x) b) a = false -> In s a -> In s b -> False.
Proof.
  intros E A B. assert (X : existsb (fun x => existsb (str_eqb x) b) a = true); [|congruence].
  apply existsb_exists. exists s. split; auto. apply existsb_exists. exists s. split; [auto|apply str_eqb_refl].
Qed.
Theorem c106_at_most_one : forall n,
  length (BoxedExpressions_visit n ++ NSNumberLiterals_visit n ++ ContainerLiterals_visit n ++ ObjectSubscripting_visit n) <= 1.
Proof.
  intros n.
  assert (BL : boxable n -> ~ number_literal n) by apply boxable_not_literal.
  assert (CC : container_literal n -> exists c s l, message_to n c s l /\ (c = $"NSArray" \/ c = $"NSDictionary")
    /\ In s ([$"array"; $"arrayWithObject:"; $"arrayWithObjects:"; $"arrayWithObjects:count:"] ++ [$"dictionary"; $"dictionaryWithObject:forKey:"; $"dictionaryWithObjects:forKeys:";
    $"dictionaryWithObjects:forKeys:count:"; $"dictionaryWithObjectsAndKeys:"])).
  { intros (c & s & l & M & K). exists c, s, l. split; auto. rewrite in_app_iff. inversion K; subst; auto. }
  assert (BC : boxable n -> ~ container_literal n).
  { intros B C. destruct (boxable_selector n B) as (c & s & l & M & D & _). destruct (CC C) as (c' & s' & l' & M' & D' & _).
    destruct (message_to_det _ _ _ _ _ _ _ M M') as (<- & _). destruct D as [->| ->], D' as [D'|D']; discriminate. }
  assert (LC : number_literal n -> ~ container_literal n).
  { intros (s & a & M & _) C. destruct (CC C) as (c' & s' & l' & M' & D' & _).
    destruct (message_to_det _ _ _ _ _ _ _ M M') as (<- & _). destruct D' as [D'|D']; discriminate. }
  assert (BS : boxable n -> ~ subscriptable n).
  { intros B S. destruct (boxable_selector n B) as (c & s & l & M & _ & I). pose proof (subscript_selector n S _ _ _ M) as J.
    eapply disjoint_lists; [|exact I|exact J]. vm_compute. reflexivity. }
  assert (LS : number_literal n -> ~ subscriptable n).
  { intros L S. destruct (literal_selector n L) as (s & l & M & I). pose proof (subscript_selector n S _ _ _ M) as J.
    eapply disjoint_lists; [|exact I|exact J]. vm_compute. reflexivity. }
  assert (CS : container_literal n -> ~ subscriptable n).
  { intros C S. destruct (CC C) as (c & s & l & M & _ & I). pose proof (subscript_selector n S _ _ _ M) as J.
    eapply disjoint_lists; [|exact I|exact J]. vm_compute. reflexivity. }
  destruct (boxed_node n) as [[B ->]|[B ->]], (literal_node n) as [[L ->]|[L ->]], (container_node n) as [[C ->]|[C ->]], (subscript_node n) as [[S ->]|[S ->]]; cbn; lia || tauto.
Qed.
Definition sent (i : nat) (iface sel : string) (recv : option node) (args : list node) : node :=
  nd i (ObjCMessageExpr {| ms_selector := $sel; ms_receiver := RInstance; ms_implicit := false; ms_interface := Some $iface; ms_method := None; ms_methodClass := None |} recv args).
Definition ex_migration : node := nd 1 (OtherStmt [
  sent 2 "NSNumber" "numberWithInt:" None [Node 3 $"int" (ParenExpr (var 4))];
  sent 5 "NSNumber" "numberWithInt:" None [Node 6 $"int" (IntegerLiteral 7)];
  sent 7 "NSNumber" "numberWithLong:" None [Node 8 $"int" (IntegerLiteral 7)];
  sent 9 "NSArray" "arrayWithObject:" None [var 10];
  sent 11 "NSArray" "objectAtIndex:" (Some (Node 12 $"NSArray *" (ImplicitCastExpr CK_LValueToRValue (var 13)))) [var 14];
  sent 15 "NSArray" "objectAtIndex:" (Some (Node 16 $"NSArray *" (DeclRefExpr 0 $"a" false))) [var 17];
  sent 18 "NSString" "stringWithUTF8String:" None [Node 19 $"const char *" (ImplicitCastExpr CK_Other (Node 20 $"char *" (CallExpr None (var 21) [])))]]).
Example c105_case : map (fun f => map (fun r => n_id (rp_node r)) (reports f ex_migration))
  [BoxedExpressions_visit; NSNumberLiterals_visit; ContainerLiterals_visit; ObjectSubscripting_visit] = [[2; 18]; [5]; [9]; [11]].
Proof. reflexivity. Qed.
Example c106_case : map (fun n => length (BoxedExpressions_visit n ++ NSNumberLiterals_visit n ++ ContainerLiterals_visit n ++ ObjectSubscripting_visit n)) (children (n_shape ex_migration))
  = [1; 1; 0; 1; 1; 0; 1].
Proof. reflexivity. Qed.
(** An array known to be mutable may be read without subscripting. *)
Theorem c105_mutable_read_refuted : exists n i r args, n_shape n = ObjCMessageExpr i (Some r) args /\ n_ty r = $"NSMutableArray *"
  /\ ms_selector i = $"objectAtIndex:" /\ reports ObjectSubscripting_visit n = [].
Proof.
  exists (sent 1 "NSMutableArray" "objectAtIndex:" (Some (Node 12 $"NSMutableArray *" (ImplicitCastExpr CK_LValueToRValue (var 13)))) [var 14]).
  do 3 eexists. split; [reflexivity|]. split; [reflexivity|]. split; reflexivity.
Qed.

Print Assumptions c71_exactly_envied. Print Assumptions c71_order_irrelevant. Print Assumptions c71_own_class_never. Print Assumptions c71_super_refuted.
Print Assumptions c98_exactly_virtual_defaults. Print Assumptions c99_exactly_private_static. Print Assumptions c100_exactly_missing_hash.
Print Assumptions c100_category_refuted. Print Assumptions c101_exactly_forgotten. Print Assumptions c101_class_method_refuted. Print Assumptions c101_declaration_refuted.
Print Assumptions c102_exactly_prohibited. Print Assumptions c102_one_message. Print Assumptions c102_where_marks_are. Print Assumptions c102_not_a_suppression.
Print Assumptions c103_defined. Print Assumptions c103_reports. Print Assumptions c103_protocol_refuted. Print Assumptions c103_own_method_refuted.
Print Assumptions c103_function_refuted. Print Assumptions c104_exactly_unimplemented. Print Assumptions c105_exactly_boxable. Print Assumptions c105_exactly_number_literals.
Print Assumptions c105_exactly_container_literals. Print Assumptions c105_exactly_subscripts. Print Assumptions c105_mutable_read_refuted. Print Assumptions c106_at_most_one.
