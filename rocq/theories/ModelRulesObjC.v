(** * Model of the design, cocoa and migration rules *)
From Verif Require Import Base ModelConfig ModelSource ModelAST ModelRules ModelRulesBasic.

(** ** rules/design *)

(** AvoidDefaultArgumentsOnVirtualMethodsRule.cpp:11-14, 81-92 with AbstractASTMatcherRule.cpp *)
Definition hasDefaultArg (p : node) : bool :=
  match n_shape p with VarDecl v _ => v_defaultArg v | _ => false end.
Definition DefaultArguments_visit (n : node) : list report :=
  match n_shape n with
  | FunctionDecl {| f_method := Some m |} params _ =>
      if cm_virtual m && existsb hasDefaultArg params then [plainReport n] else []
  | _ => []
  end.

(** AvoidPrivateStaticMembersRule.cpp:11-19, 69-85: the two matchers, on every node *)
Definition PrivateStatic_visit (n : node) : list report :=
  match n_shape n with
  | VarDecl v _ => if v_private v && v_staticMember v then [plainReport n] else []
  | FunctionDecl {| f_method := Some m |} _ _ => if cm_private m && cm_static m then [plainReport n] else []
  | _ => []
  end.

(** FeatureEnvyRule.cpp:18: _receiversCount; 122-125: countClassName.  Counters are unbounded
    here; a [long] would need 2^63 messages to overflow. *)
Fixpoint countClassName (className : str) (m : list (str * Z)) : list (str * Z) :=
  match m with
  | [] => [(className, 1%Z)]
  | (k, v) :: m' => if str_eqb k className then (k, (v + 1)%Z) :: m' else (k, v) :: countClassName className m'
  end.
(** :127-133 *)
Definition countInterface (interface : option str) (m : list (str * Z)) : list (str * Z) :=
  match interface with Some name => countClassName name m | None => m end.
(** :37-76; [ms_interface], and the interfaces of instance variables and property accessors,
    are what Clang answers: :93-120 answer none for methods of protocols. *)
Definition MessageAnalyzer_visit (n : node) (m : list (str * Z)) : list (str * Z) :=
  match n_shape n with
  | ObjCMessageExpr i _ _ =>
      if negb (ms_implicit i) then
        match ms_receiver i with
        | RInstance => countInterface (ms_interface i) m
        | RClass qualType => countClassName qualType m
        | _ => m
        end
      else m
  | ObjCIvarRefExpr _ interface _ => countInterface interface m
  | ObjCPropertyRefExpr isMessagingSetter setter getter _ => countInterface (if isMessagingSetter then setter else getter) m
  | _ => m
  end.
(** :145-152 *)
Fixpoint selfMessages (selfname : str) (m : list (str * Z)) : Z :=
  match m with
  | [] => 0%Z
  | (k, v) :: m' => if str_eqb k selfname then v else selfMessages selfname m'
  end.
(** :154-165; [order] is the iteration order of the unordered map *)
Definition enviedClasses (order : list (str * Z) -> list (str * Z)) (self : Z) (m : list (str * Z)) : list str :=
  map fst (filter (fun p => (snd p >? self)%Z) (order m)).
(** :21-29, 85-91 *)
Definition analyzeObjC (order : list (str * Z) -> list (str * Z)) (mi : objcmethod) (decl : node) : list str :=
  match om_class mi with
  | Some selfName =>
      let m := snd (traverse (fun x s => (true, MessageAnalyzer_visit x s)) decl []) in
      enviedClasses order (selfMessages selfName m) m
  | None => []
  end.
(** :169-183, 201-207; getNameAsString of an Objective-C method is its selector *)
Definition FeatureEnvy_visit (order : list (str * Z) -> list (str * Z)) (n : node) : list report :=
  match n_shape n with
  | ObjCMethodDecl mi _ _ =>
      map (fun enviedClass => Report n ($"Method " ++ om_selector mi ++ $" messages " ++ enviedClass ++ $" more than self."))
        (analyzeObjC order mi n)
  | _ => []
  end.

(** ** rules/cocoa *)

(** EnforceHelper.cpp:5-10 *)
Definition declHasEnforceAttribute (d : option decl) (rule comment : str) : bool * str :=
  match d with
  | Some d => declHasActionAttribute d $"enforce" rule comment
  | None => (false, comment)
  end.

(** ObjCVerifyIsEqualHashRule.cpp:72-100 *)
Definition IsEqualHash_visit (n : node) : list report :=
  match n_shape n with
  | ObjCContainerDecl {| oc_kind := OKImplementation; oc_methods := ms |} _ =>
      let instmeth := map fst (filter snd ms) in
      let foundHash := existsb (str_eqb $"hash") instmeth in
      let foundIsEqual := existsb (str_eqb $"isEqual:") instmeth in
      if foundIsEqual && negb foundHash then [Report n $"If you override isEqual you must override hash too."] else []
  | _ => []
  end.

(** ObjCVerifyMustCallSuperRule.cpp:26-33 *)
Definition isSuperCall (selector : str) (n : node) : bool :=
  match n_shape n with
  | ObjCMessageExpr i _ _ =>
      str_eqb (ms_selector i) selector && match ms_receiver i with RSuperInstance => true | _ => false end
  | _ => false
  end.
Definition foundSuperCall (selector : str) (decl : node) : bool :=
  snd (traverse (fun m (found : bool) => (true, if isSuperCall selector m then true else found)) decl false).
(** :44-57 *)
Definition declRequiresSuperCall (mi : objcmethod) : bool :=
  om_overriding mi && existsb (fun d => fst (declHasEnforceAttribute (Some d) $"base method" [])) (om_overridden mi).
(** :127-143 *)
Definition MustCallSuper_visit (n : node) : list report :=
  match n_shape n with
  | ObjCMethodDecl mi _ _ =>
      let selectorName := om_selector mi in
      if declRequiresSuperCall mi then
        if negb (foundSuperCall selectorName n) then
          [Report n ($"overridden method " ++ selectorName ++ $" must call super")] else []
      else []
  | _ => []
  end.

(** ObjCVerifyProhibitedCallRule.cpp:15-39 *)
Definition withComment (description comment : str) : str :=
  match comment with [] => description | _ => description ++ $" instead use " ++ comment end.
Definition ProhibitedCall_visit (n : node) : list report :=
  match n_shape n with
  | CallExpr callee _ _ =>
      match declHasEnforceAttribute (option_map snd callee) $"prohibited method" [] with
      | (true, comment) =>
          [Report n (withComment ($"calling prohibited function " ++ match callee with Some (name, _) => name | None => [] end) comment)]
      | (false, _) => []
      end
  | ObjCMessageExpr i _ _ =>
      match declHasEnforceAttribute (ms_method i) $"prohibited method" [] with
      | (true, comment) => [Report n (withComment ($"calling prohibited method " ++ ms_selector i) comment)]
      | (false, _) => []
      end
  | _ => []
  end.

(** ASTUtil.cpp:70-78; [oc_classes] is the chain of superclasses *)
Definition isObjCInterfaceClassOrSubclass (chain : list str) (className : str) : bool := existsb (str_eqb className) chain.
(** ObjCVerifyProtectedMethodRule.cpp:25-41 *)
Definition CheckMethodsInsideClass_visit (container : list str) (n : node) (violations : list (node * msginfo)) : list (node * msginfo) :=
  match n_shape n with
  | ObjCMessageExpr i _ _ =>
      if negb (fst (declHasEnforceAttribute (ms_method i) $"protected method" [])) then violations
      else match ms_interface i with
           | None => violations
           | Some interface =>
               if negb (isObjCInterfaceClassOrSubclass container interface) then violations ++ [(n, i)] else violations
           end
  | _ => violations
  end.
(** :60-67; getClassInterface of the called method is null if a protocol declares it *)
Fixpoint protectedReports (violations : list (node * msginfo)) : outcome (list report) :=
  match violations with
  | [] => Val []
  | (expr, i) :: rest =>
      match ms_methodClass i with
      | None => UB
      | Some sourceClass =>
          obind (protectedReports rest) (fun rs =>
            Val (Report expr ($"calling protected method " ++ ms_selector i ++ $" from outside " ++ sourceClass ++ $" and its subclasses") :: rs))
      end
  end.
(** :53-70 *)
Definition ProtectedMethod_visit (n : node) : outcome (list report) :=
  match n_shape n with
  | ObjCContainerDecl {| oc_kind := OKImplementation; oc_classes := (_ :: _) as container |} _ =>
      protectedReports (snd (traverse (fun x vs => (true, CheckMethodsInsideClass_visit container x vs)) n []))
  | _ => Val []
  end.

(** ObjCVerifySubclassMustImplementRule.cpp:86-105; Clang gives every implementation a class
    interface.  [oc_methods] are the methods of the implementation itself. *)
Definition getMethod (methods : list (str * bool)) (selector : str) (isInstance : bool) : bool :=
  existsb (fun m => str_eqb (fst m) selector && Bool.eqb (snd m) isInstance) methods.
Definition SubclassMustImplement_visit (n : node) : list report :=
  match n_shape n with
  | ObjCContainerDecl {| oc_kind := OKImplementation; oc_methods := own; oc_superMethods := Some (className, methods) |} _ =>
      flat_map (fun method =>
        let '(selector, isInstance, d) := method in
        if fst (declHasEnforceAttribute (Some d) $"abstract method" []) then
          if negb (getMethod own selector isInstance) then
            [Report n ($"subclasses of " ++ className ++ $" must implement " ++ selector)] else []
        else []) methods
  | _ => []
  end.

(** ** rules/migration *)
(** std::map::find *)
Definition mapFind (m : list (str * str)) (key : str) : option str :=
  option_map snd (find (fun p => str_eqb (fst p) key) m).
(** oclint/util/StdUtil.h:10-14 *)
Definition vectorContains (x : str) (l : list str) : bool := existsb (str_eqb x) l.

(** ObjCBoxedExpressionsRule.cpp:11-18 *)
Definition isParenExprBox (expr : node) (selector : str) (methodArgTypeMap : list (str * str)) : bool :=
  match n_shape expr with
  | ParenExpr _ => match mapFind methodArgTypeMap selector with Some t => str_eqb t (n_ty expr) | None => false end
  | _ => false
  end.
(** :20-30 *)
Definition isObjCBoolBox (expr : node) (selector : str) : bool :=
  if str_eqb selector $"numberWithBool:" then
    match n_shape expr with
    | ImplicitCastExpr _ sub =>
        str_eqb (n_ty expr) $"BOOL" && match n_shape sub with ParenExpr _ => true | _ => false end
    | _ => false
    end
  else false.
(** :32-42 *)
Definition isEnumConstantBox (expr : node) (selector : str) : bool :=
  if str_eqb selector $"numberWithInt:" then
    match n_shape expr with
    | DeclRefExpr _ _ isEnumConstant => str_eqb (n_ty expr) $"int" && isEnumConstant
    | _ => false
    end
  else false.
Definition intSelArgTypeMap : list (str * str) :=
  [($"numberWithInt:", $"int"); ($"numberWithUnsignedInt:", $"unsigned int"); ($"numberWithLong:", $"long");
   ($"numberWithUnsignedLong:", $"unsigned long"); ($"numberWithLongLong:", $"long long");
   ($"numberWithUnsignedLongLong:", $"unsigned long long")].
Definition floatSelArgTypeMap : list (str * str) := [($"numberWithFloat:", $"float"); ($"numberWithDouble:", $"double")].
(** :44-63 *)
Definition isNSNumberBox (selector : str) (expr : node) : bool :=
  isParenExprBox expr selector (($"numberWithChar:", $"char") :: intSelArgTypeMap ++ floatSelArgTypeMap)
  || isObjCBoolBox expr selector || isEnumConstantBox expr selector.
(** :65-78 *)
Definition isNSStringBox (selector : str) (expr : node) : bool :=
  match n_shape expr with
  | ImplicitCastExpr _ sub =>
      if str_eqb selector $"stringWithUTF8String:" then
        str_eqb (n_ty expr) $"const char *" && str_eqb (n_ty sub) $"char *"
        && match n_shape sub with CallExpr _ _ _ | ParenExpr _ => true | _ => false end
      else false
  | _ => false
  end.
(** :135-146 *)
Definition BoxedExpressions_visit (n : node) : list report :=
  match n_shape n with
  | ObjCMessageExpr i _ [arg] =>
      match ms_interface i with
      | Some c =>
          if (str_eqb c $"NSNumber" && isNSNumberBox (ms_selector i) arg)
             || (str_eqb c $"NSString" && isNSStringBox (ms_selector i) arg)
          then [plainReport n] else []
      | None => []
      end
  | _ => []
  end.

(** ObjCContainerLiteralsRule.cpp:66-94 *)
Definition arraySelectors : list str := [$"array"; $"arrayWithObject:"; $"arrayWithObjects:count:"; $"arrayWithObjects:"].
Definition dictionarySelectors : list str :=
  [$"dictionary"; $"dictionaryWithObject:forKey:"; $"dictionaryWithObjects:forKeys:count:"; $"dictionaryWithObjectsAndKeys:";
   $"dictionaryWithObjects:forKeys:"].
Definition ContainerLiterals_visit (n : node) : list report :=
  match n_shape n with
  | ObjCMessageExpr i _ _ =>
      match ms_interface i with
      | Some c =>
          if (str_eqb c $"NSArray" && vectorContains (ms_selector i) arraySelectors)
             || (str_eqb c $"NSDictionary" && vectorContains (ms_selector i) dictionarySelectors)
          then [plainReport n] else []
      | None => []
      end
  | _ => []
  end.

(** ObjCNSNumberLiteralsRule.cpp:11-20 *)
Definition isCharLiteral (expr : node) (selector : str) : bool :=
  if str_eqb selector $"numberWithChar:" then
    match n_shape expr with
    | ImplicitCastExpr _ sub => match n_shape sub with CharacterLiteral _ => true | _ => false end
    | _ => false
    end
  else false.
(** :22-29 *)
Definition isLiteralOf (isaT : node -> bool) (expr : node) (selector : str) (m : list (str * str)) : bool :=
  isaT expr && match mapFind m selector with Some t => str_eqb t (n_ty expr) | None => false end.
(** :31-49 *)
Definition isObjCBoolLiteral (expr : node) (selector : str) : bool :=
  if str_eqb selector $"numberWithBool:" then
    match n_shape expr with
    | ObjCBoolLiteralExpr _ => true
    | ParenExpr inner =>
        match n_shape inner with
        | CStyleCastExpr _ sub => match n_shape sub with IntegerLiteral _ => true | _ => false end && str_eqb (n_ty inner) $"BOOL"
        | _ => false
        end
    | _ => false
    end
  else false.
(** :51-72 *)
Definition canSimplify (selector : str) (expr : node) : bool :=
  isCharLiteral expr selector
  || isLiteralOf (fun e => match n_shape e with IntegerLiteral _ => true | _ => false end) expr selector intSelArgTypeMap
  || isLiteralOf (fun e => match n_shape e with FloatingLiteral _ => true | _ => false end) expr selector floatSelArgTypeMap
  || isObjCBoolLiteral expr selector.
(** :129-139 *)
Definition NSNumberLiterals_visit (n : node) : list report :=
  match n_shape n with
  | ObjCMessageExpr i _ [arg] =>
      match ms_interface i with
      | Some c => if str_eqb c $"NSNumber" && canSimplify (ms_selector i) arg then [plainReport n] else []
      | None => []
      end
  | _ => []
  end.

(** ObjCObjectSubscriptingRule.cpp:12-50 *)
Definition subscriptSelector (expr : node) (selector ty : str) (selectors : list str) : bool :=
  str_eqb (n_ty expr) ty && vectorContains selector selectors.
(** :107-122 *)
Definition ObjectSubscripting_visit (n : node) : list report :=
  match n_shape n with
  | ObjCMessageExpr i (Some receiverExpr) _ =>
      match n_shape receiverExpr with
      | ImplicitCastExpr _ _ =>
          let selectorString := ms_selector i in
          if subscriptSelector receiverExpr selectorString $"NSArray *" [$"objectAtIndex:"; $"objectAtIndexedSubscript:"]
             || subscriptSelector receiverExpr selectorString $"NSMutableArray *" [$"replaceObjectAtIndex:withObject:"; $"setObject:atIndexedSubscript:"]
             || subscriptSelector receiverExpr selectorString $"NSDictionary *" [$"objectForKey:"; $"objectForKeyedSubscript:"]
             || subscriptSelector receiverExpr selectorString $"NSMutableDictionary *" [$"setObject:forKey:"; $"setObject:forKeyedSubscript:"]
          then [plainReport n] else []
      | _ => []
      end
  | _ => []
  end.
