(** * Model of oclint-scripts/scaffoldRule and scaffoldReporter

    The scripts a rule or reporter author starts from.  Texts are byte strings, taken as ASCII.
    Directories are not modelled: [path.mkdir_p] and opening for writing succeed. *)
From Verif Require Import Base.

(** [re.sub('[A-Z]', lower_add_space, class_name)[1:]], scaffoldRule:119-120 and 142,
    scaffoldReporter:71-72 and 86 *)
Definition tolower (c : ascii) : ascii := if isupper c then ascii_of_nat (code c + 32) else c.
Definition lower_add_space (s : str) : str :=
  flat_map (fun c => if isupper c then [" "%char; tolower c] else [c]) s.
Definition default_name (class_name : str) : str := skipn 1 (lower_add_space class_name).

(** Python's [s.replace(old, new)] for a non-empty [old]; [length s] steps suffice. *)
Fixpoint replace_loop (fuel : nat) (old new s : str) : str :=
  match fuel, s with
  | S f, c :: s' => if prefixb old s then new ++ replace_loop f old new (skipn (length old) s)
                    else c :: replace_loop f old new s'
  | _, _ => s
  end.
Definition replace (s old new : str) : str := replace_loop (length s) old new s.

(** Iterating over a text file: lines with their line feed. *)
Fixpoint lines_of (s : str) : list str :=
  match s with
  | [] => []
  | c :: s' => if ascii_eqb c NL then [NL] :: lines_of s'
               else match lines_of s' with
                    | [] => [[c]]
                    | l :: ls => (c :: l) :: ls
                    end
  end.

(** ** The file system *)
Definition files := str -> option str.
Definition isfile (f : files) (p : str) : bool := match f p with Some _ => true | None => false end.
Definition write (f : files) (p s : str) : files := fun q => if str_eqb q p then Some s else f q.
(** [open(p, 'a')] and writing *)
Definition append (f : files) (p s : str) : files :=
  write f p (match f p with Some old => old ++ s | None => s end).
(** [os.path.join(a, b)] for non-empty [a] not ending in a slash *)
Definition join (a b : str) : str :=
  match b with
  | c :: _ => if ascii_eqb c "/"%char then b else a ++ $"/" ++ b
  | [] => a ++ $"/"
  end.

(** ** scaffoldRule *)

(** :52-62.  [re.search('def (.+) :', line)]: from the first "def " behind which, at least one
    character on, there is a " :", up to the last such. *)
Fixpoint last_colon (s : str) : option nat :=
  match s with
  | [] => None
  | _ :: s' => match last_colon s' with
               | Some n => Some (S n)
               | None => if prefixb $" :" s then Some 0 else None
               end
  end.
Fixpoint search_def (line : str) : option str :=
  match line with
  | [] => None
  | _ :: line' =>
      if prefixb $"def " line then
        match last_colon (skipn 4 line) with
        | Some (S n) => Some (firstn (S n) (skipn 4 line))
        | _ => search_def line'
        end
      else search_def line'
  end.
Definition generate_code_block (line node_type : str) : str :=
  match search_def line with
  | Some name =>
      let node_name := name ++ node_type in
      [NL] ++ $"    /* Visit " ++ node_name ++ [NL]
      ++ $"    bool Visit" ++ node_name ++ $"(" ++ node_name ++ $" *node)" ++ [NL]
      ++ $"    {" ++ [NL] ++ $"        return true;" ++ [NL] ++ $"    }" ++ [NL]
      ++ $"     */" ++ [NL]
  | None => []
  end.
(** :64-72 *)
Definition visit_ast_nodes (stmt_nodes decl_nodes : str) : str :=
  flat_map (fun l => generate_code_block l []) (lines_of stmt_nodes)
  ++ flat_map (fun l => generate_code_block l $"Decl") (lines_of decl_nodes).

(** :122-142; [version.oclint_version()] (oclintscripts/version.py:22-23) *)
Record ruleargs := {
  ra_class_name : str; ra_rule_type : str; ra_category : str; ra_name : str; ra_priority : Z;
  ra_test : bool
}.
Definition oclint_version : str := $"26.02".
Definition rule_name (a : ruleargs) : str :=
  if is_nil (ra_name a) then default_name (ra_class_name a) else ra_name a.
Definition wildcard (name : str) : str := $"{{" ++ name ++ $"}}".
(** :74-78, in the order of the list *)
Definition wildcard_attributes (a : ruleargs) : list (str * str) :=
  [($"RULE_CLASS_NAME", ra_class_name a); ($"RULE_NAME", rule_name a); ($"RULE_PRIORITY", show_Z (ra_priority a));
   ($"RULE_CATEGORY", ra_category a); ($"RULE_NAME", rule_name a); ($"OCLINT_VERSION", oclint_version)].
(** :74-79 *)
Definition replace_wildcard (a : ruleargs) (nodes : str) (line : str) : str :=
  replace (fold_left (fun l kv => replace l (wildcard (fst kv)) (snd kv)) (wildcard_attributes a) line)
    (wildcard $"VISIT_AST_NODE_BLOCK") nodes.

(** The directory of the rules project, :10-16 *)
Section Rules.
  Variable project : str.
  Definition rules_root := project ++ $"/rules".
  Definition test_root := project ++ $"/test".
  Definition template_dir := project ++ $"/template".
  (** :18-28 *)
  Definition custom_folder_path (folder : str) := join rules_root folder.
  Definition custom_test_folder_path (folder : str) := join test_root folder.
  Definition cmake_lists (folder : str) := join folder $"CMakeLists.txt".

  (** :30-34 *)
  Definition add_path_to_cmake_lists (f : files) (path cmake_lists build_step : str) : files :=
    if isfile f path then f else append (append f path []) cmake_lists build_step.
  (** :36-50 *)
  Definition pre_check_rule (f : files) (folder : str) : files :=
    add_path_to_cmake_lists f (cmake_lists (custom_folder_path folder)) (cmake_lists rules_root)
      ([NL] ++ $"ADD_RULE_CATEGORY_DIRECTORY(" ++ folder ++ $")" ++ [NL]).
  Definition pre_check_test (f : files) (folder : str) : files :=
    add_path_to_cmake_lists f (cmake_lists (custom_test_folder_path folder)) (cmake_lists test_root)
      ([NL] ++ $"ADD_SUBDIRECTORY(" ++ folder ++ $")" ++ [NL]).
  Definition pre_check (f : files) (folder : str) : files := pre_check_test (pre_check_rule f folder) folder.

  (** :81-89.  The destination is emptied before the template is opened.  The node lists are read
      for every line (:79); a missing file raises after what was written so far, taken as nothing
      here. *)
  Definition copy_template (f : files) (folder_path rule_type suffix : str) (a : ruleargs) : files * outcome unit :=
    let dst_path := join folder_path (ra_class_name a ++ suffix ++ $".cpp") in
    let f1 := write f dst_path [] in
    match f1 (join template_dir (rule_type ++ suffix ++ $".tmpl")),
          f1 (join template_dir $"ClangStmtNodes"), f1 (join template_dir $"ClangDeclNodes") with
    | Some template, Some stmts, Some decls =>
        (write f1 dst_path (flat_map (replace_wildcard a (visit_ast_nodes stmts decls)) (lines_of template)), Val tt)
    | _, _, _ => (f1, Exc $"FileNotFoundError")
    end.
  (** :98-103 *)
  Definition write_cmake_lists (f : files) (path : str) (a : ruleargs) : files :=
    let n := ra_class_name a in
    append f path ([NL] ++ $"SET(Build" ++ n ++ $"Rule " ++ n ++ $")" ++ [NL]
                   ++ $"BUILD_DYNAMIC_RULES(" ++ ["""" ]%char ++ $"${Build" ++ n ++ $"Rule}" ++ [""""]%char ++ $")" ++ [NL]).
  (** :105-109 *)
  Definition write_test_cmake_lists (f : files) (path : str) (a : ruleargs) : files :=
    let n := ra_class_name a in
    append f path ([NL] ++ $"BUILD_TEST(" ++ n ++ $"RuleTest" ++ [NL] ++ n ++ $"RuleTest.cpp)" ++ [NL]).
  (** :91-96, 112-117 *)
  Definition scaffold (f : files) (a : ruleargs) : files * outcome unit :=
    let folder := ra_category a in
    match copy_template f (custom_folder_path folder) (ra_rule_type a) $"Rule" a with
    | (f1, Val _) =>
        let f2 := write_cmake_lists f1 (cmake_lists (custom_folder_path folder)) a in
        if ra_test a then
          match copy_template f2 (custom_test_folder_path folder) [] $"RuleTest" a with
          | (f3, Val _) => (write_test_cmake_lists f3 (cmake_lists (custom_test_folder_path folder)) a, Val tt)
          | r => r
          end
        else (f2, Val tt)
    | r => r
    end.
  (** :143-144 *)
  Definition scaffoldRule (f : files) (a : ruleargs) : files * outcome unit :=
    scaffold (pre_check f (ra_category a)) a.
End Rules.

(** ** scaffoldReporter *)
Record repargs := { pa_class_name : str; pa_name : str; pa_tests : bool }.
(** :85-86 *)
Definition reporter_name (a : repargs) : str :=
  if is_nil (pa_name a) then default_name (pa_class_name a) else pa_name a.
(** :28-31 *)
Definition rep_replace_wildcard (a : repargs) (line : str) : str :=
  replace (replace line (wildcard $"REPORTER_CLASS_NAME") (pa_class_name a)) (wildcard $"REPORTER_NAME") (reporter_name a).

Section Reporters.
  Variable project : str.                                    (* :7-15 *)
  Definition reporters_root := project ++ $"/reporters".
  Definition reporters_test := project ++ $"/test".
  Definition class_path (a : repargs) := join reporters_root (pa_class_name a ++ $"Reporter.cpp").
  Definition test_path (a : repargs) := join reporters_test (pa_class_name a ++ $"ReporterTest.cpp").
  (** :17-26, with what is printed *)
  Definition pre_validate (f : files) (a : repargs) : list str * bool :=
    let class_file_exits := isfile f (class_path a) in
    let test_file_exits := pa_tests a && isfile f (test_path a) in
    ((if class_file_exits then [$"Error: " ++ pa_class_name a ++ $"Reporter.cpp already exists." ++ [NL]] else [])
     ++ (if test_file_exits then [$"Error: " ++ pa_class_name a ++ $"ReporterTest.cpp already exists." ++ [NL]] else []),
     negb (class_file_exits || test_file_exits)).
  (** :33-48 *)
  Definition rep_copy_template (f : files) (new_path template_path : str) (a : repargs) : files * outcome unit :=
    let f1 := write f new_path [] in
    match f1 template_path with
    | Some template => (write f1 new_path (flat_map (rep_replace_wildcard a) (lines_of template)), Val tt)
    | None => (f1, Exc $"FileNotFoundError")
    end.
  (** :50-61 *)
  Definition append_cmake_lists (f : files) (path new_line : str) : files := append f path ([NL] ++ new_line ++ [NL]).
  (** :63-69, 87-90 *)
  Definition scaffoldReporter (f : files) (a : repargs) : list str * (files * outcome unit) :=
    let '(printed, ok) := pre_validate f a in
    (printed,
     if ok then
       match rep_copy_template f (class_path a) (project ++ $"/template/Reporter.tmpl") a with
       | (f1, Val _) =>
           let f2 := append_cmake_lists f1 (join reporters_root $"CMakeLists.txt")
                       ($"BUILD_DYNAMIC_REPORTER(" ++ pa_class_name a ++ $")") in
           if pa_tests a then
             match rep_copy_template f2 (test_path a) (project ++ $"/template/ReporterTest.tmpl") a with
             | (f3, Val _) => (append_cmake_lists f3 (join reporters_test $"CMakeLists.txt")
                                 ($"BUILD_TEST(" ++ pa_class_name a ++ $"ReporterTest)"), Val tt)
             | r => r
             end
           else (f2, Val tt)
       | r => r
       end
     else (f, Val tt)).
End Reporters.
