(** * Specification for C133 and C134: scaffolding of rules and reporters *)
From Verif Require Import Base ModelScaffold.

(** A class name as authors choose it: letters, the first one a capital. *)
Definition proper_class (c : str) : Prop :=
  exists first rest, c = first :: rest /\ isupper first = true /\ Forall (fun x => isalpha x = true) rest.

(** A template is text with holes. *)
Inductive segment := Text (t : str) | Hole (name : str).
Definition show (s : segment) : str := match s with Text t => t | Hole n => $"{{" ++ n ++ $"}}" end.
Definition render (l : list segment) : str := concat (map show l).
(** The text with the holes filled; a hole without a value stays. *)
Definition fill (value : str -> option str) (l : list segment) : str :=
  concat (map (fun s => match s with
                        | Text t => t
                        | Hole n => match value n with Some v => v | None => $"{{" ++ n ++ $"}}" end
                        end) l).

Definition brace (c : ascii) : Prop := c = "{"%char \/ c = "}"%char.
Definition no_braces (s : str) : Prop := forall c, In c s -> ~ brace c.
(** Text between holes does not look like the start of one. *)
Definition plain_text (t : str) : Prop :=
  forall a b, t = a ++ "{"%char :: b -> exists c b', b = c :: b' /\ c <> "{"%char.
Definition well_formed (s : segment) : Prop :=
  match s with Text t => plain_text t | Hole n => no_braces n end.

(** One line of a template: its last character, and no other, is a line feed. *)
Definition line (l : list segment) : Prop := exists body, render l = body ++ [NL] /\ ~ In NL body.
Definition template (lines : list (list segment)) : Prop :=
  Forall (fun l => line l /\ Forall well_formed l) lines.

(** A name of a file or directory. *)
Definition component (s : str) : Prop := s <> [] /\ ~ In "/"%char s /\ s <> $"." /\ s <> $"..".

(** The lists of node kinds: lines that define one, and others. *)
Inductive node_line := Def (indent name rest : str) | Remark (text : str).
Definition node_text (l : node_line) : str :=
  match l with
  | Def indent name rest => indent ++ $"def " ++ name ++ $" :" ++ rest ++ [NL]
  | Remark text => text ++ [NL]
  end.
Definition node_ok (l : node_line) : Prop :=
  match l with
  | Def indent name rest => (forall c, In c indent -> c = " "%char) /\ name <> [] /\ ~ In NL name
                            /\ ~ In ":"%char rest /\ ~ In NL rest
  | Remark text => ~ In NL text /\ forall before name after, text ++ [NL] <> before ++ $"def " ++ name ++ $" :" ++ after
  end.
Definition node_list (l : list node_line) : str := concat (map node_text l).
Definition names (l : list node_line) : list str := flat_map (fun d => match d with Def _ n _ => [n] | Remark _ => [] end) l.
(** The commented-out visit function for one kind, and for all. *)
Definition visit_block (n : str) : str :=
  [NL] ++ $"    /* Visit " ++ n ++ [NL]
  ++ $"    bool Visit" ++ n ++ $"(" ++ n ++ $" *node)" ++ [NL]
  ++ $"    {" ++ [NL] ++ $"        return true;" ++ [NL] ++ $"    }" ++ [NL]
  ++ $"     */" ++ [NL].
Definition visit_blocks (stmts decls : list node_line) : str :=
  concat (map visit_block (names stmts)) ++ concat (map (fun n => visit_block (n ++ $"Decl")) (names decls)).

(** What the holes of a rule template stand for. *)
Definition rule_value (a : ruleargs) (nodes : str) (n : str) : option str :=
  if str_eqb n $"RULE_CLASS_NAME" then Some (ra_class_name a)
  else if str_eqb n $"RULE_NAME" then Some (if is_nil (ra_name a) then default_name (ra_class_name a) else ra_name a)
  else if str_eqb n $"RULE_PRIORITY" then Some (show_Z (ra_priority a))
  else if str_eqb n $"RULE_CATEGORY" then Some (ra_category a)
  else if str_eqb n $"OCLINT_VERSION" then Some oclint_version
  else if str_eqb n $"VISIT_AST_NODE_BLOCK" then Some nodes
  else None.
Definition reporter_value (a : repargs) (n : str) : option str :=
  if str_eqb n $"REPORTER_CLASS_NAME" then Some (pa_class_name a)
  else if str_eqb n $"REPORTER_NAME" then Some (if is_nil (pa_name a) then default_name (pa_class_name a) else pa_name a)
  else None.

(** Where things are, in the directory of a project. *)
Definition rule_file (project : str) (a : ruleargs) : str :=
  project ++ $"/rules/" ++ ra_category a ++ $"/" ++ ra_class_name a ++ $"Rule.cpp".
Definition rule_test_file (project : str) (a : ruleargs) : str :=
  project ++ $"/test/" ++ ra_category a ++ $"/" ++ ra_class_name a ++ $"RuleTest.cpp".
Definition rule_list (project : str) (a : ruleargs) : str := project ++ $"/rules/" ++ ra_category a ++ $"/CMakeLists.txt".
Definition rule_test_list (project : str) (a : ruleargs) : str := project ++ $"/test/" ++ ra_category a ++ $"/CMakeLists.txt".
Definition rule_template (project : str) (a : ruleargs) : str := project ++ $"/template/" ++ ra_rule_type a ++ $"Rule.tmpl".
Definition test_template (project : str) : str := project ++ $"/template/RuleTest.tmpl".
Definition text_at (f : files) (p : str) : str := match f p with Some s => s | None => [] end.

(** What is added to the lists of things to build. *)
Definition rule_step (a : ruleargs) : str :=
  [NL] ++ $"SET(Build" ++ ra_class_name a ++ $"Rule " ++ ra_class_name a ++ $")" ++ [NL]
  ++ $"BUILD_DYNAMIC_RULES(" ++ [""""]%char ++ $"${Build" ++ ra_class_name a ++ $"Rule}" ++ [""""]%char ++ $")" ++ [NL].
Definition test_step (a : ruleargs) : str :=
  [NL] ++ $"BUILD_TEST(" ++ ra_class_name a ++ $"RuleTest" ++ [NL] ++ ra_class_name a ++ $"RuleTest.cpp)" ++ [NL].
Definition category_step (a : ruleargs) : str := [NL] ++ $"ADD_RULE_CATEGORY_DIRECTORY(" ++ ra_category a ++ $")" ++ [NL].
Definition directory_step (a : ruleargs) : str := [NL] ++ $"ADD_SUBDIRECTORY(" ++ ra_category a ++ $")" ++ [NL].

(** Arguments as authors give them: a class of letters, a category that is a directory name, no
    braces, one of the three priorities. *)
Definition sensible (a : ruleargs) : Prop :=
  proper_class (ra_class_name a) /\ component (ra_category a) /\ no_braces (ra_category a) /\ no_braces (ra_name a)
  /\ (1 <= ra_priority a <= 3)%Z.

Definition rule_type (t : str) : Prop := In t [$"Generic"; $"SourceCodeReader"; $"ASTVisitor"; $"ASTMatcher"].
Definition all_rules_list (project : str) : str := project ++ $"/rules/CMakeLists.txt".
Definition all_tests_list (project : str) : str := project ++ $"/test/CMakeLists.txt".
Definition reporter_file (project : str) (a : repargs) : str := project ++ $"/reporters/" ++ pa_class_name a ++ $"Reporter.cpp".
Definition reporter_test_file (project : str) (a : repargs) : str := project ++ $"/test/" ++ pa_class_name a ++ $"ReporterTest.cpp".
Definition reporters_list (project : str) : str := project ++ $"/reporters/CMakeLists.txt".
Definition reporter_step (a : repargs) : str := [NL] ++ $"BUILD_DYNAMIC_REPORTER(" ++ pa_class_name a ++ $")" ++ [NL].
Definition reporter_test_step (a : repargs) : str := [NL] ++ $"BUILD_TEST(" ++ pa_class_name a ++ $"ReporterTest)" ++ [NL].
Definition sensible_reporter (a : repargs) : Prop := proper_class (pa_class_name a) /\ no_braces (pa_name a).
