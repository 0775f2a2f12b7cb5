(** * Running the model on the inputs of OCLint's own unit tests

    The files ConformanceRules*.v are written by tools/conformance/emit.py: each states what
    one call of testRuleOn*Code of oclint-rules/test expects.  They are tests of the model,
    not properties. *)
From Verif Require Import Base ModelResults ModelConfig ModelSource ModelAST ModelRules ModelRuleTable
  ModelRulesObjC ModelProgram.

(** test/headers/TestRuleOnCode.cpp:84-149: the languages of the overloads *)
Definition LC := {| lo_objc := false; lo_cxx := false; lo_c99 := true; lo_cuda := false |}.
Definition LCXX := {| lo_objc := false; lo_cxx := true; lo_c99 := false; lo_cuda := false |}.
Definition LObjC := {| lo_objc := true; lo_cxx := false; lo_c99 := true; lo_cuda := false |}.
Definition LCUDA := {| lo_objc := false; lo_cxx := true; lo_c99 := false; lo_cuda := true |}.

(** A parsed input.  Nodes are numbered; the tables are indexed by these numbers. *)
Record testcase := {
  ts_lang : langopts;
  ts_path : str;
  ts_code : str;                                  (* given for rules on lines only *)
  ts_comments : list (str * Z);
  ts_conf : list (str * str);
  ts_tops : list (top * node);
  ts_locs : list (Z * Z * Z * Z);
  ts_evals : list (nat * bool);                   (* conditions Clang can evaluate *)
  ts_same : list (nat * nat);                     (* classes of structurally equal expressions *)
  ts_decls : list (nat * decl);                   (* declarations with annotations *)
  ts_parents : list (option nat * bool)           (* parent, and whether it is a declaration *)
}.
Definition toplevel (id : nat) (k : topkind) : top :=
  {| t_id := id; t_validLoc := true; t_inMainFile := true; t_kind := k |}.
Definition assoc {A} (l : list (nat * A)) (k : nat) : option A :=
  option_map snd (find (fun p => fst p =? k) l).

Definition declAt (t : testcase) (i : nat) : decl :=
  match assoc (ts_decls t) i with Some d => d | None => Decl [] None end.
(** ASTContext::getParents, transitively; numbers of parents are smaller. *)
Fixpoint parentsAt (fuel : nat) (t : testcase) (i : nat) : parents :=
  match fuel with
  | O => NoParent
  | S fuel =>
      match nth_error (ts_parents t) i with
      | Some (Some j, _) =>
          match nth_error (ts_parents t) j with
          | Some (_, true) => Parents (PDecl (declAt t j)) (parentsAt fuel t j) []
          | _ => Parents PStmt (parentsAt fuel t j) []
          end
      | _ => NoParent
      end
  end.
Definition locationAt (t : testcase) (i : nat) : location :=
  let '(a, b, c, d) := nth i (ts_locs t) (0, 0, 0, 0)%Z in
  {| l_path := ts_path t; l_line := a; l_column := b; l_endLine := c; l_endColumn := d |}.
Definition visitedDecls (t : testcase) (root : node) : list vdecl :=
  collect (fun n => if isDecl n then let l := locationAt t (n_id n) in
                      [{| vd_decl := declAt t (n_id n); vd_startLine := l_line l; vd_endLine := l_endLine l |}] else []) root.
Definition context_of (t : testcase) : tuctx :=
  {| cx_env :=
       {| e_unit :=
            {| u_path := ts_path t; u_content := ts_code t;
               u_comments := Some (map (fun c => Some {| cm_text := fst c; cm_line := snd c |}) (ts_comments t));
               u_top := map (fun p => {| td_validLoc := true; td_inMainFile := true;
                                         td_visited := visitedDecls t (snd p) |}) (ts_tops t) |};
          e_decl := declAt t;
          e_parents := fun i => parentsAt (S i) t i;
          e_loc := locationAt t |};
     cx_lang := ts_lang t;
     cx_tops := ts_tops t;
     cx_evaluate := fun n => assoc (ts_evals t) (n_id n);
     cx_lines := fun n => let l := locationAt t (n_id n) in (l_endLine l - l_line l + 1)%Z;
     cx_sameExpr := fun a b => match assoc (ts_same t) (n_id a), assoc (ts_same t) (n_id b) with
                               | Some x, Some y => x =? y
                               | _, _ => false
                               end |}.

Fixpoint index_of (s : shipped) (l : list (shipped * behaviour)) : nat :=
  match l with
  | [] => 0
  | (s', _) :: rest => if str_eqb (sh_file s) (sh_file s') && str_eqb (sh_name s) (sh_name s') then 0 else S (index_of s rest)
  end.
Definition seen := (Z * Z * Z * Z * str)%type.
Definition see (v : violation) : seen := (v_startLine v, v_startColumn v, v_endLine v, v_endColumn v, v_message v).
(** A rule under test: what it adds, in a fresh process. *)
Definition rule_under_test := cfg -> tuctx -> option violationset.
Definition shippedRule (s : shipped) : rule_under_test := fun c x =>
  match takeoff c (index_of s shipped_behaviours) x r_initial with Val (vs, _) => Some vs | _ => None end.

(** ** The rules that the tests define themselves, and the one that is not shipped *)
Definition source (lines : list str) : str :=
  match lines with [] => [] | l :: rest => l ++ flat_map (fun m => NL :: m) rest end.
Definition testRule (attr : str) (languages cuda : N) (visit : node -> list report) : rule_under_test := fun _ x =>
  Some (fst (apply_rule (cx_env x) (cx_lang x) languages cuda 0 attr visit (cx_tops x) ([], sc_fresh))).
Definition everyNode (n : node) : list report := [Report n []].
Definition everyDecl (n : node) : list report := if isDecl n then [Report n []] else [].
(** test/helper/SuppressHelperTest.cpp:10-39 *)
Definition suppressHelperTestASTRule := testRule $"test ast rule" 7 1 everyNode.
(** test/helper/SuppressHelperTest.cpp:152-174 *)
Definition suppressHelperTestSourceCodeReaderRule : rule_under_test := fun _ x =>
  let u := e_unit (cx_env x) in
  Some (fst (fold_left (fun st l => addViolation_line u (fst l) 1 (fst l) (Z.of_nat (length (snd l))) 0
                                      $"test source code rule" [] (fst st) (snd st))
               (source_lines (u_content u)) ([], sc_fresh))).
(** test/abstract/CUDASupportTest.cpp:8-26, 51-81 *)
Definition implicitNoCUDARule := testRule $"implicit no cuda rule" 7 1 everyDecl.
Definition explicitCUDARule (flags : N) := testRule $"explicit cuda rule" 7 flags everyDecl.
(** test/abstract/LanguageSelectionTest.cpp:8-37, 66-108 *)
Definition defaultASTRule := testRule $"default ast rule" 7 1 everyNode.
Definition languageSelectionASTRule (languages : N) := testRule [] languages 1 everyNode.
(** test/abstract/MacroLocationTest.cpp:9-32 *)
Definition defaultASTRule2 := testRule $"default ast rule" 7 1 (fun n =>
  match n_shape n with BinaryOperator _ _ _ => [Report n []] | _ => [] end).
(** test/abstract/TagBasedViolationTest.cpp:8-39: compound statements are numbered *)
Definition findAllCompoundStmtRule : rule_under_test := fun _ x =>
  let found := flat_map (fun p => collect (fun n => match n_shape n with CompoundStmt _ => [n] | _ => [] end) (snd p)) (cx_tops x) in
  Some (fst (fold_left (fun st kn => add_report (cx_env x) 0 $"find all compound stmt rule" st (Report (snd kn) (show_Z (Z.of_nat (fst kn)))))
               (combine (seq 1 (length found)) found) ([], sc_fresh))).
(** test/helper/AttributeHelperTest.cpp:11-48, 50-87 *)
Definition enforced (d : option decl) : bool * str :=
  match d with Some d => declHasActionAttribute d $"enforce" $"test attribute" [] | None => (false, []) end.
Definition attributeHelperTestCallRule := testRule $"test attribute" 7 1 (fun n =>
  match n_shape n with
  | ObjCMessageExpr i _ _ => if fst (enforced (ms_method i)) then [Report n []] else []
  | CallExpr callee _ _ => if fst (enforced (option_map snd callee)) then [Report n []] else []
  | _ => []
  end).
Definition attributeHelperTestCallCommentRule := testRule $"test attribute" 7 1 (fun n =>
  match n_shape n with
  | CallExpr callee _ _ =>
      match enforced (option_map snd callee) with
      | (true, []) => [Report n $"no comment"]
      | (true, comment) => [Report n comment]
      | (false, _) => []
      end
  | _ => []
  end).
(** rules/design/FeatureEnvyRule.cpp, which the build leaves out *)
Definition featureEnvyRule := testRule $"feature envy" 4 1 (FeatureEnvy_visit (fun m => m)).

(** The violations of a run of the rule on the input. *)
Definition violations_of (r : rule_under_test) (t : testcase) : option (list seen) :=
  let c := fold_left (fun c kv => addConfiguration c (fst kv) (snd kv)) (ts_conf t) cfg_fresh in
  option_map (map see) (r c (context_of t)).
(** TestRuleOnCode.cpp:62-76 *)
Definition nth_violation (r : rule_under_test) (t : testcase) (i : nat) : option seen :=
  match violations_of r t with Some vs => nth_error vs i | None => None end.
(** TestRuleOnCode.cpp:203-210, without the messages: no input has two violations in one place *)
Definition lessByLocation (a b : seen) : bool :=
  let '(l, c, el, ec, _) := a in
  let '(l', c', el', ec', _) := b in
  if negb (l =? l')%Z then (l <? l')%Z
  else if negb (c =? c')%Z then (c <? c')%Z
  else if negb (el =? el')%Z then (el <? el')%Z
  else (ec <? ec')%Z.
Fixpoint insert (v : seen) (l : list seen) : list seen :=
  match l with
  | [] => [v]
  | w :: rest => if lessByLocation w v then w :: insert v rest else v :: l
  end.
(** TestRuleOnCode.cpp:212-243 *)
Definition sorted_violations_of (r : rule_under_test) (t : testcase) : option (list seen) :=
  option_map (fold_right insert []) (violations_of r t).
