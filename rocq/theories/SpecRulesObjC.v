(** * Specification vocabulary for the design, cocoa and migration rules *)
From Verif Require Import Base ModelSource ModelAST ModelRules SpecFilter SpecSource SpecAST SpecRules.

(** ** Design *)
Definition member_function (n : node) (m : cxxmethod) (params : list node) : Prop :=
  exists f b, n_shape n = FunctionDecl f params b /\ f_method f = Some m.
Definition defaulted (p : node) : Prop := exists v i, n_shape p = VarDecl v i /\ v_defaultArg v = true.
Definition virtual_with_default (n : node) : Prop :=
  exists m ps p, member_function n m ps /\ cm_virtual m = true /\ In p ps /\ defaulted p.
Definition private_static (n : node) : Prop :=
  (exists v i, n_shape n = VarDecl v i /\ v_private v = true /\ v_staticMember v = true)
  \/ (exists m ps, member_function n m ps /\ cm_private m = true /\ cm_static m = true).

(** Node [n] is a message to class [c], or a use of an instance variable or property of it. *)
Inductive addresses : node -> str -> Prop :=
| ad_instance : forall n i r a c, n_shape n = ObjCMessageExpr i r a -> ms_implicit i = false ->
    ms_receiver i = RInstance -> ms_interface i = Some c -> addresses n c
| ad_class : forall n i r a c, n_shape n = ObjCMessageExpr i r a -> ms_implicit i = false ->
    ms_receiver i = RClass c -> addresses n c
| ad_ivar : forall n x b c, n_shape n = ObjCIvarRefExpr x (Some c) b -> addresses n c
| ad_write : forall n g b c, n_shape n = ObjCPropertyRefExpr true (Some c) g b -> addresses n c
| ad_read : forall n s b c, n_shape n = ObjCPropertyRefExpr false s (Some c) b -> addresses n c.
(** The number of places within [n] that do. *)
Definition times (n : node) (c : str) (k : nat) : Prop :=
  exists sel, sublist_where (fun m => addresses m c) (nodes n) sel /\ length sel = k.
Definition method_of_class (n : node) (selector own : str) : Prop :=
  exists mi ps b, n_shape n = ObjCMethodDecl mi ps b /\ om_selector mi = selector /\ om_class mi = Some own.
Definition envies (n : node) (selector c : str) : Prop :=
  exists own k k0, method_of_class n selector own /\ times n c k /\ times n own k0 /\ k0 < k.
(** One report per envied class, in any order. *)
Definition envy_reports (n : node) (rs : list report) : Prop :=
  exists cs, NoDup cs
  /\ (forall c, In c cs <-> exists s, envies n s c)
  /\ Forall2 (fun c r => exists s, envies n s c /\ r = Report n ($"Method " ++ s ++ $" messages " ++ c ++ $" more than self.")) cs rs.

(** ** Annotations that enforce *)
(** The annotations consulted for a declaration, in order. *)
Definition olist {A} (o : option (list A)) : list A := match o with Some l => l | None => [] end.
Fixpoint searched (d : decl) : list str :=
  match d with
  | Decl own None => own
  | Decl own (Some (Method accessor property ctx)) =>
      own ++ (if accessor then olist property else [])
      ++ match ctx with
         | InProtocol l => olist l
         | InOther (Some cats) => searched_in cats
         | _ => []
         end
  end
with searched_in (cats : categories) : list str :=
  match cats with
  | NoCategory => []
  | Category None rest => searched_in rest
  | Category (Some d) rest => searched d ++ searched_in rest
  end.
(** [annotation] enforces [what]; [note] is the text in brackets after it, if any. *)
Definition enforcing (what annotation : str) : Prop := exists rest, annotation = $"oclint:enforce[" ++ what ++ $"]" ++ rest.
Definition note_of (what annotation note : str) : Prop :=
  exists rest, annotation = $"oclint:enforce[" ++ what ++ $"]" ++ rest
  /\ (bracket_comment rest note \/ ((forall b, ~ bracket_comment rest b) /\ note = [])).
Definition marked (d : decl) (what : str) : Prop := exists a, In a (searched d) /\ enforcing what a.
Definition marked_with (d : decl) (what note : str) : Prop :=
  exists a, first_such (enforcing what) (searched d) a /\ note_of what a note.

(** ** Cocoa *)
Definition class_implementation (n : node) (o : objccontainer) : Prop :=
  exists l, n_shape n = ObjCContainerDecl o l /\ oc_kind o = OKImplementation.
Definition equal_without_hash (n : node) : Prop :=
  exists o, class_implementation n o /\ In ($"isEqual:", true) (oc_methods o) /\ ~ In ($"hash", true) (oc_methods o).

Definition message (n : node) (i : msginfo) : Prop := exists r a, n_shape n = ObjCMessageExpr i r a.
Definition must_call_super (n : node) (selector : str) : Prop :=
  exists mi ps b, n_shape n = ObjCMethodDecl mi ps b /\ om_selector mi = selector
  /\ om_overriding mi = true /\ (exists d, In d (om_overridden mi) /\ marked d $"base method").
Definition calls_super (n : node) (selector : str) : Prop :=
  exists m i, below n m /\ message m i /\ ms_selector i = selector /\ ms_receiver i = RSuperInstance.
Definition forgets_super (n : node) (text : str) : Prop :=
  exists s, must_call_super n s /\ ~ calls_super n s /\ text = $"overridden method " ++ s ++ $" must call super".

(** [call n kind name d]: [n] calls the declaration [d]. *)
Inductive call : node -> str -> str -> decl -> Prop :=
| ca_function : forall n name d c a, n_shape n = CallExpr (Some (name, d)) c a -> call n $"function" name d
| ca_method : forall n i d, message n i -> ms_method i = Some d -> call n $"method" (ms_selector i) d.
Definition prohibited (n : node) (text : str) : Prop :=
  exists kind name d note, call n kind name d /\ marked_with d $"prohibited method" note
  /\ text = $"calling prohibited " ++ kind ++ $" " ++ name ++ (if is_nil note then [] else $" instead use " ++ note).

(** A message to a protected method through a receiver whose class is not in [classes]. *)
Definition trespasses (classes : list str) (n : node) (i : msginfo) : Prop :=
  message n i /\ (exists d, ms_method i = Some d /\ marked d $"protected method")
  /\ exists c, ms_interface i = Some c /\ ~ In c classes.
Definition trespass_report (n : node) (r : report) : Prop :=
  exists i c, message n i /\ ms_methodClass i = Some c
  /\ r = Report n ($"calling protected method " ++ ms_selector i ++ $" from outside " ++ c ++ $" and its subclasses").
(** Per class implementation, the trespassing messages within it. *)
Definition trespass_reports (n : node) (rs : list report) : Prop :=
  (exists o sel, class_implementation n o /\ oc_classes o <> []
     /\ sublist_where (fun m => exists i, trespasses (oc_classes o) m i) (nodes n) sel /\ Forall2 trespass_report sel rs)
  \/ ((forall o, class_implementation n o -> oc_classes o = []) /\ rs = []).

(** A trespassing message within a class implementation to a method that belongs to no class. *)
Definition classless_trespass (n : node) : Prop :=
  exists o m i, class_implementation n o /\ oc_classes o <> [] /\ below n m /\ trespasses (oc_classes o) m i /\ ms_methodClass i = None.

(** The superclass method [m] must be implemented, and is not among [own]. *)
Definition unimplemented (own : list (str * bool)) (m : str * bool * decl) : Prop :=
  marked (snd m) $"abstract method" /\ ~ In (fst m) own.
Definition abstract_reports (n : node) (rs : list report) : Prop :=
  (exists o parent ms sel, class_implementation n o /\ oc_superMethods o = Some (parent, ms)
     /\ sublist_where (unimplemented (oc_methods o)) ms sel
     /\ rs = map (fun m => Report n ($"subclasses of " ++ parent ++ $" must implement " ++ fst (fst m))) sel)
  \/ ((forall o, class_implementation n o -> oc_superMethods o = None) /\ rs = []).

(** ** Migration *)
Definition message_to (n : node) (c selector : str) (args : list node) : Prop :=
  exists i r, n_shape n = ObjCMessageExpr i r args /\ ms_interface i = Some c /\ ms_selector i = selector.
Inductive number_maker : str -> str -> Prop :=
| nm_int : number_maker $"numberWithInt:" $"int"
| nm_uint : number_maker $"numberWithUnsignedInt:" $"unsigned int"
| nm_long : number_maker $"numberWithLong:" $"long"
| nm_ulong : number_maker $"numberWithUnsignedLong:" $"unsigned long"
| nm_longlong : number_maker $"numberWithLongLong:" $"long long"
| nm_ulonglong : number_maker $"numberWithUnsignedLongLong:" $"unsigned long long".
Inductive float_maker : str -> str -> Prop :=
| fm_float : float_maker $"numberWithFloat:" $"float"
| fm_double : float_maker $"numberWithDouble:" $"double".
Definition parenthesis (n : node) : Prop := exists e, n_shape n = ParenExpr e.
Inductive boxable : node -> Prop :=
| bx_paren : forall n s a, message_to n $"NSNumber" s [a] -> parenthesis a ->
    (s = $"numberWithChar:" /\ n_ty a = $"char" \/ number_maker s (n_ty a) \/ float_maker s (n_ty a)) -> boxable n
| bx_bool : forall n a k e, message_to n $"NSNumber" $"numberWithBool:" [a] -> n_shape a = ImplicitCastExpr k e ->
    n_ty a = $"BOOL" -> parenthesis e -> boxable n
| bx_enum : forall n a d x, message_to n $"NSNumber" $"numberWithInt:" [a] -> n_shape a = DeclRefExpr d x true ->
    n_ty a = $"int" -> boxable n
| bx_string : forall n a k e, message_to n $"NSString" $"stringWithUTF8String:" [a] -> n_shape a = ImplicitCastExpr k e ->
    n_ty a = $"const char *" -> n_ty e = $"char *" -> (parenthesis e \/ exists d c l, n_shape e = CallExpr d c l) -> boxable n.
Definition boolean_literal (a : node) : Prop :=
  (exists v, n_shape a = ObjCBoolLiteralExpr v)
  \/ exists c k e v, n_shape a = ParenExpr c /\ n_shape c = CStyleCastExpr k e /\ n_shape e = IntegerLiteral v /\ n_ty c = $"BOOL".
Definition number_literal (n : node) : Prop :=
  exists s a, message_to n $"NSNumber" s [a]
  /\ ((s = $"numberWithChar:" /\ exists k e v, n_shape a = ImplicitCastExpr k e /\ n_shape e = CharacterLiteral v)
      \/ (number_maker s (n_ty a) /\ exists v, n_shape a = IntegerLiteral v)
      \/ (float_maker s (n_ty a) /\ exists v, n_shape a = FloatingLiteral v)
      \/ (s = $"numberWithBool:" /\ boolean_literal a)).
Inductive container_maker : str -> str -> Prop :=
| cm_array : forall s, In s [$"array"; $"arrayWithObject:"; $"arrayWithObjects:"; $"arrayWithObjects:count:"] -> container_maker $"NSArray" s
| cm_dictionary : forall s, In s [$"dictionary"; $"dictionaryWithObject:forKey:"; $"dictionaryWithObjects:forKeys:";
    $"dictionaryWithObjects:forKeys:count:"; $"dictionaryWithObjectsAndKeys:"] -> container_maker $"NSDictionary" s.
Definition container_literal (n : node) : Prop :=
  exists c s args, message_to n c s args /\ container_maker c s.
Inductive subscript : str -> str -> Prop :=
| sb_get : forall s, In s [$"objectAtIndex:"; $"objectAtIndexedSubscript:"] -> subscript $"NSArray *" s
| sb_set : forall s, In s [$"replaceObjectAtIndex:withObject:"; $"setObject:atIndexedSubscript:"] -> subscript $"NSMutableArray *" s
| sb_lookup : forall s, In s [$"objectForKey:"; $"objectForKeyedSubscript:"] -> subscript $"NSDictionary *" s
| sb_store : forall s, In s [$"setObject:forKey:"; $"setObject:forKeyedSubscript:"] -> subscript $"NSMutableDictionary *" s.
(** The receiver is the value of a variable or property, read without a written cast. *)
Definition subscriptable (n : node) : Prop :=
  exists i r k e args, n_shape n = ObjCMessageExpr i (Some r) args /\ n_shape r = ImplicitCastExpr k e /\ subscript (n_ty r) (ms_selector i).
