(** * Model of the rules on variables (oclint-rules/rules/naming and rules/unused) *)
From Verif Require Import Base ModelConfig ModelAST ModelRules ModelRulesRedundant.

(** ** LongVariableNameRule.cpp *)

(** std::string::substr(pos, len): [len] came from a negative int when [None], then all the
    rest is taken. *)
Definition substr_at (s : str) (pos : Z) (len : option nat) : outcome str :=
  if ((pos <? 0) || (Z.of_nat (length s) <? pos))%Z then Exc $"basic_string::substr"
  else Val match len with
           | Some k => firstn k (skipn (Z.to_nat pos) s)
           | None => skipn (Z.to_nat pos) s
           end.
(** :70-71.  [length() - 3] wraps around for shorter names, which is out of range as well. *)
Definition shortened (name : str) (threshold : Z) : outcome str :=
  obind (substr_at name 0 (if (threshold + 3 <? 0)%Z then None else Some (Z.to_nat (threshold + 3)))) (fun a =>
  obind (substr_at name (Z.of_nat (length name) - 3) (Some (length name))) (fun b =>
  Val (a ++ $"..." ++ b))).
(** :61-80.  [threshold + 10] may overflow. *)
Definition LongVariableName_visit (threshold : Z) (n : node) : outcome (list report) :=
  match n_shape n with
  | VarDecl v _ =>
      let nameLength := Z.of_nat (length (v_name v)) in
      if (nameLength >? threshold)%Z then
        if negb (in_intb (threshold + 10)) then UB
        else obind (if (nameLength >? threshold + 10)%Z then shortened (v_name v) threshold else Val (v_name v)) (fun shown =>
          Val [Report n ($"Length of variable name `" ++ shown ++ $"` is " ++ show_Z nameLength
                         ++ $", which is longer than the threshold of " ++ show_Z threshold)])
      else Val []
  | _ => Val []
  end.
(** The limit is read at every variable (:65). *)
Definition isVarDecl (n : node) : bool := match n_shape n with VarDecl _ _ => true | _ => false end.
Definition LongVariableNameRule (c : cfg) : node -> outcome (list report) :=
  reports_outcome (fun n =>
    if isVarDecl n then obind (intForKey c $"LONG_VARIABLE_NAME" 20) (fun t => LongVariableName_visit (fst t) n) else Val []).

(** ** ShortVariableNameRule.cpp.  The stack, top first, holds addresses of variables. *)

(** :33-52, from the empty stack *)
Definition handleDeclStmt (s : option node) : list nat :=
  match s with
  | Some s => match n_shape s with DeclStmt ds => map n_id (filter isVarDecl ds) | _ => [] end
  | None => []
  end.
(** :25-31, from the empty stack *)
Definition handleVarDecl (d : option node) : list nat :=
  match d with Some d => if isVarDecl d then [n_id d] else [] | None => [] end.
(** CXXForRangeStmt::getLoopVariable: the single declaration of its statement *)
Definition getLoopVariable (loopVar : node) : option node :=
  match n_shape loopVar with DeclStmt [d] => Some d | _ => None end.
(** :102-161 *)
Definition ShortVariableName_visit (threshold : Z) (n : node) (stack : list nat) : list nat * list report :=
  match n_shape n with
  | VarDecl v _ =>
      let nameLength := Z.of_nat (length (v_name v)) in
      if ((nameLength <=? 0) || (nameLength >=? threshold))%Z then (stack, [])
      else
        let violation := [Report n ($"Length of variable name `" ++ v_name v ++ $"` is " ++ show_Z nameLength
                            ++ $", which is shorter than the threshold of " ++ show_Z threshold)] in
        match stack with
        | [] => ([], violation)
        | top :: rest => (rest, if n_id n =? top then [] else violation)
        end
  | ForStmt init _ _ _ _ => (handleDeclStmt init, [])
  | CXXForRangeStmt _ v _ _ => (handleVarDecl (getLoopVariable v), [])
  | ObjCForCollectionStmt e _ _ => (handleDeclStmt (Some e), [])
  | CXXCatchStmt e _ => (handleVarDecl e, [])
  | _ => (stack, [])
  end.
(** The limit is read at every variable (:106), and matters nowhere else. *)
Definition ShortVariableName_step (c : cfg) (n : node) (st : list nat * list report) : outcome (list nat * list report) :=
  obind (if isVarDecl n then obind (intForKey c $"SHORT_VARIABLE_NAME" 3) (fun t => Val (fst t)) else Val 0%Z) (fun threshold =>
    Val (snd (stateful_visit (ShortVariableName_visit threshold) n st))).
(** One unit: the stack left behind, and the reports; [stack] is what earlier units left
    behind, as nothing resets it. *)
Definition ShortVariableName_run (c : cfg) (stack : list nat) (roots : list node) : outcome (list nat * list report) :=
  fold_left (fun acc root => snd (traverse (fun n a => (true, obind a (ShortVariableName_step c n))) root acc)) roots (Val (stack, [])).
Definition ShortVariableNameRule (c : cfg) (stack : list nat) (roots : list node) : outcome (list report) :=
  obind (ShortVariableName_run c stack roots) (fun st => Val (snd st)).

(** ** UnusedLocalVariableRule.cpp *)

(** :23 *)
Definition isSeparator (c : ascii) : bool :=
  ascii_eqb c ","%char || ascii_eqb c ";"%char || ascii_eqb c " "%char || ascii_eqb c "009"%char || ascii_eqb c "000"%char.
(** :18-36, from position [i] on, [rest] being the text from there; the terminating NUL counts. *)
Fixpoint splitClasses_loop (input rest : str) (i startPos : nat) : list str :=
  match rest with
  | [] => if startPos =? i then [] else [substr input startPos (i - startPos)]
  | c :: rest' =>
      if isSeparator c then
        (if startPos =? i then [] else [substr input startPos (i - startPos)])
        ++ splitClasses_loop input rest' (S i) (S i)
      else splitClasses_loop input rest' (S i) startPos
  end.
Definition splitClasses (input : str) : list str := splitClasses_loop input input 0 0.
(** :39-67; the set is a list here, only asked for members. *)
Definition skippedTypes (c : cfg) : outcome (list str) :=
  obind (stringForKey c $"RAII_DEFAULT_CLASSES" $"std::lock_guard, std::unique_lock") (fun d =>
  obind (stringForKey (snd d) $"RAII_CUSTOM_CLASSES" []) (fun u =>
  Val (flat_map (fun keys => match keys with [] => [] | _ => splitClasses keys end) [fst d; fst u]))).
(** :109-127 *)
Definition variableTypeName (canonical : str) : str :=
  let t := match find_char "<"%char canonical with Some p => firstn p canonical | None => canonical end in
  match rfind_char " "%char t with Some p => skipn (S p) t | None => t end.
Definition isRAIIClass (skipped : list str) (v : varinfo) : bool :=
  existsb (str_eqb (variableTypeName (v_canonicalType v))) skipped.
(** :70-107 *)
Definition isUnusedLocalVariable (v : varinfo) : bool :=
  (negb (v_used v) && negb (v_referenced v)) && v_local v && negb (str_eqb (v_name v) [])
  && negb (v_staticMember v) && negb (v_inTemplate v).
(** :182-190 *)
Definition UnusedLocalVariable_visit (skipped : list str) (n : node) : list report :=
  match n_shape n with
  | VarDecl v _ =>
      if isUnusedLocalVariable v && negb (isRAIIClass skipped v)
      then [Report n ($"The local variable '" ++ v_name v ++ $"' is unused.")] else []
  | _ => []
  end.
Definition UnusedLocalVariableRule (c : cfg) (root : node) : outcome (list report) :=
  obind (skippedTypes c) (fun skipped => Val (reports (UnusedLocalVariable_visit skipped) root)).

(** ** UnusedMethodParameterRule.cpp *)

(** :26-70; a function without any body is one whose own declaration has none. *)
Definition isExistingByContract (context : context) : bool :=
  match context with
  | CxFunction thisHasBody hasBody isVirtual => negb thisHasBody || negb hasBody || isVirtual
  | CxObjCMethod inInterface inSuper inProtocol _ => inInterface || inSuper || inProtocol
  | CxClosure => true
  | CxRecord => true
  | CxOther => false
  end.
(** :117-121 *)
Definition isObjCMethodWithIBActionAttribute (context : context) : bool :=
  match context with CxObjCMethod _ _ _ ibaction => ibaction | _ => false end.
(** :72-112, 175-188 *)
Definition UnusedMethodParameter_visit (n : node) : list report :=
  match n_shape n with
  | VarDecl v _ =>
      if v_isParm v && (negb (v_used v) && negb (v_unusedAttr v) && negb (str_eqb (v_name v) []) && negb (v_inTemplate v)
         && negb (existsb isExistingByContract (v_contexts v))
         && negb (existsb isObjCMethodWithIBActionAttribute (v_contexts v)))
      then [Report n ($"The parameter '" ++ v_name v ++ $"' is unused.")] else []
  | _ => []
  end.
