(** * Specification vocabulary for rules, and for the size rules *)
From Verif Require Import Base ModelConfig ModelResults ModelSource ModelAST ModelRules SpecFilter SpecAST SpecSource.

(** ** Recording *)

(** The node declares something; all other nodes are statements or expressions. *)
Definition declaration (n : node) : Prop :=
  (exists v init, n_shape n = VarDecl v init) \/ (exists f ps b, n_shape n = FunctionDecl f ps b)
  \/ (exists m ps b, n_shape n = ObjCMethodDecl m ps b) \/ (exists c ms, n_shape n = CXXRecordDecl c ms)
  \/ (exists o ms, n_shape n = ObjCContainerDecl o ms) \/ (exists l, n_shape n = OtherDecl l).
(** The report concerns a suppressed node, or a line that a comment hides. *)
Definition hidden (e : env) (attr : str) (r : report) : Prop :=
  let i := n_id (rp_node r) in
  (declaration (rp_node r) /\ suppresses (e_decl e i) attr)
  \/ (exists d, on_chain (e_parents e i) d /\ suppresses d attr)
  \/ comment_on (e_unit e) (l_line (e_loc e i)).
Definition recorded (e : env) (attr : str) (r : report) : Prop :=
  ~ hidden e attr r /\ l_path (e_loc e (n_id (rp_node r))) <> [].
Definition violation_of (e : env) (rule : nat) (r : report) : violation :=
  let l := e_loc e (n_id (rp_node r)) in
  {| v_rule := Some rule; v_path := l_path l; v_startLine := l_line l; v_startColumn := l_column l;
     v_endLine := l_endLine l; v_endColumn := l_endColumn l; v_message := rp_message r |}.

(** [pat] decides whether a node causes a report, [rep] which one. *)
Definition reports_exactly (pat : node -> Prop) (rep : node -> report) (root : node) (rs : list report) : Prop :=
  exists sel, sublist_where pat (nodes root) sel /\ rs = map rep sel.
(** Several reports per node. *)
Definition reports_per_node (contributes : node -> list report -> Prop) (root : node) (rs : list report) : Prop :=
  exists rss, Forall2 contributes (nodes root) rss /\ rs = concat rss.

(** ** Size rules *)
Inductive sizekind := SCyclomatic | SNcss | SNPath | SDepth | SMethodLines | SClassLines | SFields
  | SMethods | SParameters.

Definition function_or_method (n : node) : Prop :=
  (exists f ps b, n_shape n = FunctionDecl f ps b) \/ (exists m ps b, n_shape n = ObjCMethodDecl m ps b).
Definition has_body (n b : node) : Prop :=
  (exists f ps, n_shape n = FunctionDecl f ps (Some b)) \/ (exists m ps, n_shape n = ObjCMethodDecl m ps (Some b)).
Definition implementation (o : objccontainer) : Prop :=
  oc_kind o = OKImplementation \/ oc_kind o = OKCategoryImpl.
Definition kind_text (o : objccontainer) (s : str) : Prop :=
  match oc_kind o with
  | OKInterface => s = $"interface" | OKCategory => s = $"category" | OKProtocol => s = $"protocol"
  | OKImplementation | OKCategoryImpl => s = $"implementation"
  end.

(** [measured k n m before after]: rule [k] measures [m] on [n], and words it so. *)
Inductive measured : sizekind -> node -> Z -> str -> str -> Prop :=
| me_ccn : forall n sel, function_or_method n -> sublist_where decision_point (nodes n) sel ->
    measured SCyclomatic n (1 + Z.of_nat (length sel)) $"Cyclomatic Complexity Number " []
| me_ncss : forall n b l, has_body n b -> spread controlled b l ->
    measured SNcss n (1 + sum (map own_ncss l)) $"Method of " $" non-commenting source statements"
| me_ncss_none : forall n, function_or_method n -> (forall b, ~ has_body n b) ->
    measured SNcss n 0 $"Method of " $" non-commenting source statements"
| me_npath : forall n b v, has_body n b -> compound b -> paths b v ->
    measured SNPath n v $"NPath Complexity Number " []
| me_depth : forall n p, compound n -> control_path n p -> (forall q, control_path n q -> braces q <= braces p) ->
    measured SDepth n (Z.of_nat (braces p)) $"Block depth of " []
| me_function_lines : forall n fi ps b, n_shape n = FunctionDecl fi ps (Some b) ->
    (forall m, f_method fi = Some m -> cm_inRecord m = false) ->
    measured SMethodLines n (f_bodyLines fi) $"Method with " $" lines"
| me_objc_lines : forall n mi ps b, n_shape n = ObjCMethodDecl mi ps (Some b) ->
    measured SMethodLines n (om_bodyLines mi) $"Method with " $" lines"
| me_cxx_class : forall n r l, n_shape n = CXXRecordDecl r l ->
    measured SClassLines n (r_lines r) $"C++ class with " $" lines"
| me_objc_class : forall n o l k, n_shape n = ObjCContainerDecl o l -> kind_text o k ->
    measured SClassLines n (oc_lines o) ($"Objective-C " ++ k ++ $" with ") $" lines"
| me_cxx_fields : forall n r l, n_shape n = CXXRecordDecl r l ->
    measured SFields n (Z.of_nat (r_fields r)) $"C++ class with " $" fields"
| me_objc_fields : forall n o l, n_shape n = ObjCContainerDecl o l -> oc_kind o = OKInterface ->
    measured SFields n (Z.of_nat (oc_ivars o)) $"Objective-C interface with " $" fields"
| me_cxx_methods : forall n r l, n_shape n = CXXRecordDecl r l ->
    measured SMethods n (Z.of_nat (r_methods r)) $"C++ class with " $" methods"
| me_objc_methods : forall n o l, n_shape n = ObjCContainerDecl o l -> implementation o ->
    measured SMethods n (Z.of_nat (length (oc_methods o))) $"Objective-C implementation with " $" methods"
| me_function_params : forall n fi ps b, n_shape n = FunctionDecl fi ps (Some b) ->
    measured SParameters n (Z.of_nat (length ps)) $"Method with " $" parameters"
| me_objc_params : forall n mi ps b, n_shape n = ObjCMethodDecl mi ps (Some b) ->
    measured SParameters n (Z.of_nat (length ps)) $"Method with " $" parameters".

(** The rules on one declaration, with their configuration keys and default limits. *)
Definition size_rule (k : sizekind) : cfg -> node -> outcome (list report) :=
  match k with
  | SCyclomatic => CyclomaticComplexityRule | SNcss => NcssMethodCountRule | SNPath => NPathComplexityRule
  | SDepth => NestedBlockDepthRule | SMethodLines => LongMethodRule
  | SClassLines => fun c root => LongClassRule c [root] | SFields => fun c root => TooManyFieldsRule c [root]
  | SMethods => fun c root => TooManyMethodsRule c [root] | SParameters => fun c root => TooManyParametersRule c [root]
  end.
Definition size_key (k : sizekind) : str :=
  match k with
  | SCyclomatic => $"CYCLOMATIC_COMPLEXITY" | SNcss => $"NCSS_METHOD" | SNPath => $"NPATH_COMPLEXITY"
  | SDepth => $"NESTED_BLOCK_DEPTH" | SMethodLines => $"LONG_METHOD" | SClassLines => $"LONG_CLASS"
  | SFields => $"TOO_MANY_FIELDS" | SMethods => $"TOO_MANY_METHODS" | SParameters => $"TOO_MANY_PARAMETERS"
  end.
Definition size_default (k : sizekind) : Z :=
  match k with
  | SCyclomatic => 10 | SNcss => 30 | SNPath => 200 | SDepth => 5 | SMethodLines => 50
  | SClassLines => 1000 | SFields => 20 | SMethods => 30 | SParameters => 10
  end%Z.

(** [rs] are the reports of rule [k] at limit [T]: the nodes measuring strictly more, in
    order, each once and with both numbers in the message. *)
Definition strictly_above (k : sizekind) (T : Z) (root : node) (rs : list report) : Prop :=
  exists sel, sublist_where (fun n => exists m a b, measured k n m a b /\ (T < m)%Z) (nodes root) sel
  /\ Forall2 (fun n r => exists m a b, measured k n m a b
       /\ r = Report n (a ++ show_Z m ++ b ++ $" exceeds limit of " ++ show_Z T)) sel rs.

(** A rule gets ready for the unit, whether or not there are declarations for it. *)
Definition prepared (lo : langopts) (supported attrs : N) : Prop :=
  lo_cuda lo = true \/ (lo_cuda lo = false /\ supports_host attrs /\ exists l, language_of lo l /\ supports supported l).
(** A rule looks at the top-level declaration. *)
Definition inspected (lo : langopts) (supported attrs : N) (t : top) : Prop :=
  (lo_cuda lo = true /\ cuda_relevant attrs t)
  \/ (lo_cuda lo = false /\ in_main t /\ supports_host attrs
      /\ exists l, language_of lo l /\ supports supported l).
(** All suppression questions asked before about this file concerned the same comments. *)
Definition same_comments (u : tunit) (hist : list question) : Prop :=
  forall q, In q hist -> same_file u q -> u_comments (q_unit q) = u_comments u.
