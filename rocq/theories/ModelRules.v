(** * Model of rule running, and of the size rules (oclint-rules/rules/size) *)
From Verif Require Import Base ModelResults ModelConfig ModelSource ModelAST.

(** A call addViolation(node, this, message). *)
Record report := Report { rp_node : node; rp_message : str }.

Definition isDecl (n : node) : bool :=
  match n_shape n with
  | VarDecl _ _ | FunctionDecl _ _ _ | ObjCMethodDecl _ _ _ | CXXRecordDecl _ _
  | ObjCContainerDecl _ _ | OtherDecl _ => true
  | _ => false
  end.

(** What Clang answers about the nodes of the unit: annotations, parents, source range. *)
Record env := {
  e_unit : tunit;
  e_decl : nat -> decl;
  e_parents : nat -> parents;
  e_loc : nat -> location
}.
(** addViolation of AbstractASTRuleBase.cpp:31-47, on the overload for the node. *)
Definition add_report (e : env) (rule : nat) (attr : str) (st : violationset * scache) (r : report)
  : violationset * scache :=
  let i := n_id (rp_node r) in
  if isDecl (rp_node r)
  then addViolation_decl (e_unit e) (Some (e_decl e i, e_parents e i, e_loc e i)) rule attr
         (rp_message r) (fst st) (snd st)
  else addViolation_stmt (e_unit e) (Some (e_parents e i, e_loc e i)) rule attr
         (rp_message r) (fst st) (snd st).

(** A rule whose [Visit] functions are [visit]: they report while the tree is traversed and
    always answer true. *)
Definition traverse_rule (e : env) (rule : nat) (attr : str) (visit : node -> list report)
    (root : node) (st : violationset * scache) : violationset * scache :=
  snd (traverse (fun m st => (true, fold_left (add_report e rule attr) (visit m) st)) root st).
(** AbstractASTVisitorRule.h:14-81: the actions, executed. *)
Fixpoint perform (e : env) (rule : nat) (attr : str) (visit : node -> list report)
    (tops : list (top * node)) (acts : list action) (st : violationset * scache)
  : violationset * scache :=
  match acts with
  | [] => st
  | Traverse id :: rest =>
      perform e rule attr visit tops rest
        match find (fun t => t_id (fst t) =? id) tops with
        | Some (_, root) => traverse_rule e rule attr visit root st
        | None => st
        end
  | SetUp :: rest | TearDown :: rest => perform e rule attr visit tops rest st
  end.
Definition apply_rule (e : env) (lo : langopts) (supported attrs : N) (rule : nat) (attr : str)
    (visit : node -> list report) (tops : list (top * node)) (st : violationset * scache)
  : violationset * scache :=
  perform e rule attr visit tops (applyVisitor lo supported attrs (map fst tops)) st.

(** The reports of a rule on one tree, without their recording. *)
Definition reports (visit : node -> list report) (root : node) : list report := collect visit root.

(** The same where the Visit function can throw or read a setting: the traversal ends there. *)
Definition reports_outcome (visit : node -> outcome (list report)) (root : node) : outcome (list report) :=
  snd (traverse (fun m acc => (true, obind acc (fun l => obind (visit m) (fun r => Val (l ++ r))))) root (Val [])).

(** ** rules/size *)

(** A rule whose Visit function reads its limit, at the nodes that pass [reads]; it does
    nothing at the others. *)
Definition with_limit (c : cfg) (key : str) (default : Z) (reads : node -> bool) (visit : Z -> node -> list report)
  : node -> outcome (list report) :=
  reports_outcome (fun n => if reads n then obind (intForKey c key default) (fun t => Val (visit (fst t) n)) else Val []).
(** A rule that reads its limit in setUp, before any declaration is traversed. *)
Definition with_setUp (c : cfg) (key : str) (default : Z) (visit : Z -> node -> list report) (roots : list node)
  : outcome (list report) :=
  obind (intForKey c key default) (fun t => Val (flat_map (reports (visit (fst t))) roots)).

(** VisitFunctionDecl and VisitObjCMethodDecl doing the same *)
Definition isMethod (n : node) : bool :=
  match n_shape n with FunctionDecl _ _ _ | ObjCMethodDecl _ _ _ => true | _ => false end.
Definition onMethod (f : node -> list report) (n : node) : list report :=
  match n_shape n with
  | FunctionDecl _ _ _ | ObjCMethodDecl _ _ _ => f n
  | _ => []
  end.

(** CyclomaticComplexityRule.cpp:20-32, 139-149 *)
Definition CyclomaticComplexity_visit (threshold : Z) : node -> list report :=
  onMethod (fun decl =>
    let ccn := getCyclomaticComplexity decl in
    if (ccn >? threshold)%Z then
      [Report decl ($"Cyclomatic Complexity Number " ++ show_Z ccn ++ $" exceeds limit of " ++ show_Z threshold)]
    else []).
Definition CyclomaticComplexityRule c := with_limit c $"CYCLOMATIC_COMPLEXITY" 10 isMethod CyclomaticComplexity_visit.

(** NcssMethodCountRule.cpp:14-24, 93-103 *)
Definition NcssMethodCount_visit (threshold : Z) : node -> list report :=
  onMethod (fun decl =>
    let ncss := getNcssCount decl in
    if (ncss >? threshold)%Z then
      [Report decl ($"Method of " ++ show_Z ncss ++ $" non-commenting source statements exceeds limit of "
                    ++ show_Z threshold)]
    else []).
Definition NcssMethodCountRule c := with_limit c $"NCSS_METHOD" 30 isMethod NcssMethodCount_visit.

(** NPathComplexityRule.cpp:20-38, 121-131; the int overflow of the metric propagates.
    [limit] is the outcome of reading the limit, which happens after the counting. *)
Definition NPathComplexity_visit (limit : outcome Z) (n : node) : outcome (list report) :=
  match n_shape n with
  | FunctionDecl _ _ _ | ObjCMethodDecl _ _ _ =>
      match getBody n with
      | Some bodyStmt =>
          match n_shape bodyStmt with
          | CompoundStmt _ =>
              obind (nPath bodyStmt) (fun npath => obind limit (fun threshold =>
                Val (if (npath >? threshold)%Z then
                       [Report n ($"NPath Complexity Number " ++ show_Z npath ++ $" exceeds limit of "
                                  ++ show_Z threshold)]
                     else [])))
          | _ => Val []
          end
      | None => Val []
      end
  | _ => Val []
  end.
Definition NPathComplexityRule (c : cfg) : node -> outcome (list report) :=
  reports_outcome (NPathComplexity_visit (obind (intForKey c $"NPATH_COMPLEXITY" 200) (fun t => Val (fst t)))).

(** NestedBlockDepthRule.cpp:69-81 *)
Definition NestedBlockDepth_visit (threshold : Z) (n : node) : list report :=
  match n_shape n with
  | CompoundStmt _ =>
      let d := Z.of_nat (depth n) in
      if (d >? threshold)%Z then
        [Report n ($"Block depth of " ++ show_Z d ++ $" exceeds limit of " ++ show_Z threshold)]
      else []
  | _ => []
  end.
Definition isBlock (n : node) : bool := match n_shape n with CompoundStmt _ => true | _ => false end.
Definition NestedBlockDepthRule c := with_limit c $"NESTED_BLOCK_DEPTH" 5 isBlock NestedBlockDepth_visit.

(** ASTUtil.cpp:80-88 on dyn_cast<CXXMethodDecl>(decl) *)
Definition isCppMethodDeclLocatedInCppRecordDecl (decl : node) : bool :=
  match n_shape decl with
  | FunctionDecl {| f_method := Some m |} _ b =>
      match b with None => true | Some _ => false end || cm_inRecord m
  | _ => false
  end.
(** getLineCount (ASTUtil.cpp:122-130) of the body's source range *)
Definition bodyLines (decl : node) : Z :=
  match n_shape decl with
  | FunctionDecl fi _ _ => f_bodyLines fi
  | ObjCMethodDecl mi _ _ => om_bodyLines mi
  | _ => 0%Z
  end.
(** LongMethodRule.cpp:14-29, 82-92 *)
Definition LongMethod_visit (threshold : Z) : node -> list report :=
  onMethod (fun decl =>
    match getBody decl with
    | Some _ =>
        if negb (isCppMethodDeclLocatedInCppRecordDecl decl) then
          let len := bodyLines decl in
          if (len >? threshold)%Z then
            [Report decl ($"Method with " ++ show_Z len ++ $" lines exceeds limit of " ++ show_Z threshold)]
          else []
        else []
    | None => []
    end).
Definition isLongMethodCandidate (n : node) : bool :=
  isMethod n && match getBody n with Some _ => true | None => false end && negb (isCppMethodDeclLocatedInCppRecordDecl n).
Definition LongMethodRule c := with_limit c $"LONG_METHOD" 50 isLongMethodCandidate LongMethod_visit.

(** LongClassRule.cpp:16-25 *)
Definition LongClass_applyDecl (threshold : Z) (decl : node) (len : Z) (prefix : str) : list report :=
  if (len >? threshold)%Z then
    [Report decl (prefix ++ $" with " ++ show_Z len ++ $" lines exceeds limit of " ++ show_Z threshold)]
  else [].
(** LongClassRule.cpp:79-117 *)
Definition LongClass_visit (threshold : Z) (n : node) : list report :=
  match n_shape n with
  | ObjCContainerDecl o _ =>
      LongClass_applyDecl threshold n (oc_lines o)
        match oc_kind o with
        | OKInterface => $"Objective-C interface"
        | OKCategory => $"Objective-C category"
        | OKProtocol => $"Objective-C protocol"
        | OKImplementation | OKCategoryImpl => $"Objective-C implementation"
        end
  | CXXRecordDecl r _ => LongClass_applyDecl threshold n (r_lines r) $"C++ class"
  | _ => []
  end.
Definition LongClassRule c := with_setUp c $"LONG_CLASS" 1000 LongClass_visit.

(** TooManyFieldsRule.cpp:72-99 *)
Definition TooManyFields_visit (threshold : Z) (n : node) : list report :=
  match n_shape n with
  | ObjCContainerDecl {| oc_kind := OKInterface; oc_ivars := k |} _ =>
      let fieldCount := Z.of_nat k in
      if (fieldCount >? threshold)%Z then
        [Report n ($"Objective-C interface with " ++ show_Z fieldCount ++ $" fields exceeds limit of "
                   ++ show_Z threshold)]
      else []
  | CXXRecordDecl r _ =>
      let fieldCount := Z.of_nat (r_fields r) in
      if (fieldCount >? threshold)%Z then
        [Report n ($"C++ class with " ++ show_Z fieldCount ++ $" fields exceeds limit of "
                   ++ show_Z threshold)]
      else []
  | _ => []
  end.
Definition TooManyFieldsRule c := with_setUp c $"TOO_MANY_FIELDS" 20 TooManyFields_visit.

(** TooManyMethodsRule.cpp:80-107 *)
Definition TooManyMethods_visit (threshold : Z) (n : node) : list report :=
  match n_shape n with
  | ObjCContainerDecl o _ =>
      match oc_kind o with
      | OKImplementation | OKCategoryImpl =>
          let methodCount := Z.of_nat (length (oc_methods o)) in
          if (methodCount >? threshold)%Z then
            [Report n ($"Objective-C implementation with " ++ show_Z methodCount
                       ++ $" methods exceeds limit of " ++ show_Z threshold)]
          else []
      | _ => []
      end
  | CXXRecordDecl r _ =>
      let methodCount := Z.of_nat (r_methods r) in
      if (methodCount >? threshold)%Z then
        [Report n ($"C++ class with " ++ show_Z methodCount ++ $" methods exceeds limit of "
                   ++ show_Z threshold)]
      else []
  | _ => []
  end.
Definition TooManyMethodsRule c := with_setUp c $"TOO_MANY_METHODS" 30 TooManyMethods_visit.

(** TooManyParametersRule.cpp:13-25, 90-107: the limit becomes unsigned, and is printed as
    an int again. *)
Definition to_unsigned (z : Z) : Z := (z mod 4294967296)%Z.
Definition int_of_unsigned (u : Z) : Z := if (u <=? INT_MAX)%Z then u else (u - 4294967296)%Z.
Definition TooManyParameters_visit (limit : Z) : node -> list report :=
  let threshold := to_unsigned limit in
  onMethod (fun decl =>
    let numOfParams := match n_shape decl with
                       | FunctionDecl _ ps _ | ObjCMethodDecl _ ps _ => Z.of_nat (length ps)
                       | _ => 0%Z
                       end in
    match getBody decl with
    | Some _ =>
        if (numOfParams >? threshold)%Z then
          [Report decl ($"Method with " ++ show_Z numOfParams ++ $" parameters exceeds limit of "
                        ++ show_Z (int_of_unsigned threshold))]
        else []
    | None => []
    end).
Definition TooManyParametersRule c := with_setUp c $"TOO_MANY_PARAMETERS" 10 TooManyParameters_visit.
