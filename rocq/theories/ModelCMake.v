(** * Model of CMake, as far as OCLint's build files use it

    OCLint says what is built in CMakeLists.txt files; CMake (an external program) reads them.
    This file is a reader and interpreter for the part of CMake's language that
    the CMakeLists.txt files of its modules (oclint-*/**/CMakeLists.txt) are written in; their
    texts are in ModelCMakeTexts.v; ModelCMakeConfig.v has what OCLintConfig.cmake needs besides.
    Whatever is outside that part is [Failed] here: bracket
    arguments and comments, backslashes other than doubled ones in quotes, nested parentheses,
    generator expressions, conditions other than those below.  References [${...}] are found when a file is read, so
    one that comes out of the value of a variable or macro argument is not expanded again. *)
From Verif Require Import Base ModelScaffold.

(** ** Reading a file (cmListFileLexer, cmListFileCache) *)
Inductive seg := Lit (c : ascii) | Ref (n : str).
Record argument := { a_quoted : bool; a_text : list seg }.
Record command := { c_name : str; c_args : list argument }.    (* the name in lower case *)

Definition is_word (c : ascii) : bool := isalpha c || isdigit c || ascii_eqb c "_"%char.
Definition is_blank (c : ascii) : bool := ascii_eqb c " "%char || ascii_eqb c "009"%char.
(** The text of an argument, with its references. *)
Fixpoint segments (ref : option str) (s : str) : option (list seg) :=
  match ref, s with
  | None, [] => Some []
  | None, c :: r =>
      if ascii_eqb c "$"%char then
        match r with
        | d :: r' => if ascii_eqb d "{"%char then segments (Some []) r' else option_map (cons (Lit c)) (segments None r)
        | [] => Some [Lit c]
        end
      else option_map (cons (Lit c)) (segments None r)
  | Some n, [] => None
  | Some n, c :: r =>
      if ascii_eqb c "}"%char then option_map (cons (Ref n)) (segments None r)
      else if is_word c then segments (Some (n ++ [c])) r else None
  end.

Inductive lexer :=
| Between                                                  (* nothing but blanks on this line so far *)
| Behind                                                   (* behind a command, on the same line *)
| Comment
| Naming (n : str)
| Named (n : str)                                          (* between a name and its parenthesis *)
| Inside (n : str) (l : list argument)                     (* between arguments *)
| Aside (n : str) (l : list argument)                      (* in a comment between arguments *)
| Bare (n : str) (l : list argument) (a : str)
| Quoted (n : str) (l : list argument) (a : str)
| Escaped (n : str) (l : list argument) (a : str)          (* behind a backslash in quotes *)
| Broken.
Definition with_arg (q : bool) (a : str) (l : list argument) (k : list argument -> lexer * list command)
    : lexer * list command :=
  match segments None a with
  | Some t => k (l ++ [{| a_quoted := q; a_text := t |}])
  | None => (Broken, [])
  end.
Definition lex (x : lexer) (c : ascii) : lexer * list command :=
  let finished n l := (Behind, [{| c_name := map tolower n; c_args := l |}]) in
  match x with
  | Between => if is_blank c || ascii_eqb c NL then (Between, [])
               else if ascii_eqb c "#"%char then (Comment, [])
               else if is_word c && negb (isdigit c) then (Naming [c], []) else (Broken, [])
  | Behind => if is_blank c then (Behind, [])
              else if ascii_eqb c NL then (Between, [])
              else if ascii_eqb c "#"%char then (Comment, []) else (Broken, [])
  | Comment => if ascii_eqb c NL then (Between, []) else (Comment, [])
  | Naming n => if is_word c then (Naming (n ++ [c]), [])
                else if is_blank c then (Named n, [])
                else if ascii_eqb c "("%char then (Inside n [], []) else (Broken, [])
  | Named n => if is_blank c then (Named n, []) else if ascii_eqb c "("%char then (Inside n [], []) else (Broken, [])
  | Inside n l => if is_blank c || ascii_eqb c NL then (Inside n l, [])
                  else if ascii_eqb c ")"%char then finished n l
                  else if ascii_eqb c "#"%char then (Aside n l, [])
                  else if ascii_eqb c """"%char then (Quoted n l [], [])
                  else if ascii_eqb c "("%char || ascii_eqb c "\"%char then (Broken, []) else (Bare n l [c], [])
  | Aside n l => if ascii_eqb c NL then (Inside n l, []) else (Aside n l, [])
  | Bare n l a => if is_blank c || ascii_eqb c NL then with_arg false a l (fun l => (Inside n l, []))
                  else if ascii_eqb c ")"%char then with_arg false a l (finished n)
                  else if ascii_eqb c "#"%char then with_arg false a l (fun l => (Aside n l, []))
                  else if ascii_eqb c """"%char || ascii_eqb c "("%char || ascii_eqb c "\"%char then (Broken, [])
                  else (Bare n l (a ++ [c]), [])
  | Quoted n l a => if ascii_eqb c """"%char then with_arg true a l (fun l => (Inside n l, []))
                    else if ascii_eqb c "\"%char then (Escaped n l a, []) else (Quoted n l (a ++ [c]), [])
  | Escaped n l a => if ascii_eqb c "\"%char then (Quoted n l (a ++ [c]), []) else (Broken, [])
  | Broken => (Broken, [])
  end.
Fixpoint lexes (x : lexer) (s : str) : lexer * list command :=
  match s with
  | [] => (x, [])
  | c :: r => let '(x1, l1) := lex x c in let '(x2, l2) := lexes x1 r in (x2, l1 ++ l2)
  end.
Definition commands_in (text : str) : option (list command) :=
  match lexes Between text with
  | ((Between | Behind | Comment), l) => Some l
  | _ => None
  end.

(** ** Variables and lists (cmMakefile::ExpandVariablesInString, cmExpandList) *)
Definition variables := str -> option str.
Definition assign (v : variables) (n : str) (x : option str) : variables := fun m => if str_eqb m n then x else v m.
Definition expand (v : variables) (t : list seg) : str :=
  flat_map (fun s => match s with Lit c => [c] | Ref n => match v n with Some x => x | None => [] end end) t.
(** The elements of a list, without the empty ones. *)
Fixpoint elements (cur s : str) : list str :=
  let close := if is_nil cur then [] else [cur] in
  match s with
  | [] => close
  | c :: r => if ascii_eqb c ";"%char then close ++ elements [] r else elements (cur ++ [c]) r
  end.
Definition list_of (l : list str) : str :=
  match l with [] => [] | a :: r => a ++ flat_map (fun b => ";"%char :: b) r end.
(** An argument that is not quoted stands for any number of them. *)
Definition values (v : variables) (l : list argument) : list (bool * str) :=
  flat_map (fun a => if a_quoted a then [(true, expand v (a_text a))]
                     else map (pair false) (elements [] (expand v (a_text a)))) l.
Definition plain_values (v : variables) (l : list argument) : list str := map snd (values v l).

(** ** Blocks of commands *)
Definition called (n : str) (c : command) : bool := str_eqb (c_name c) n.
(** What is before the closing command, and behind it. *)
Fixpoint block (opening closing : str) (depth : nat) (l : list command) : option (list command * list command) :=
  let put c r := option_map (fun br => (c :: fst br, snd br)) r in
  match l with
  | [] => None
  | c :: r =>
      if called closing c then match depth with O => Some ([], r) | S d => put c (block opening closing d r) end
      else put c (block opening closing (if called opening c then S depth else depth) r)
  end.
Record ifblock := { i_then : list command; i_else : list command; i_rest : list command }.
Fixpoint branches (depth : nat) (l : list command) : option ifblock :=
  let put c r := option_map (fun b => {| i_then := c :: i_then b; i_else := i_else b; i_rest := i_rest b |}) r in
  match l with
  | [] => None
  | c :: r =>
      if called $"endif" c then
        match depth with O => Some {| i_then := []; i_else := []; i_rest := r |} | S d => put c (branches d r) end
      else if called $"if" c then put c (branches (S depth) r)
      else if called $"else" c && (depth =? 0) then
        match block $"if" $"endif" 0 r with
        | Some (b, rest) => Some {| i_then := []; i_else := b; i_rest := rest |}
        | None => None
        end
      else if called $"elseif" c && (depth =? 0) then
        (* as ELSE and an IF of its own *)
        match block $"if" $"endif" 0 r with
        | Some (b, rest) => Some {| i_then := [];
                                    i_else := {| c_name := $"if"; c_args := c_args c |} :: b ++ [{| c_name := $"endif"; c_args := [] |}];
                                    i_rest := rest |}
        | None => None
        end
      else put c (branches depth r)
  end.

(** ** What is configured *)
Inductive kind := Shared | Static | Executable.
Record target := {
  t_name : str; t_kind : kind;
  t_sources : list str;                                     (* with their directories *)
  t_properties : list (str * str);
  t_links : list str                                        (* what it is linked with, in order *)
}.
Record cstate := {
  s_vars : variables;
  s_macros : list (str * (list str * list command));        (* the last definition first *)
  s_targets : list target;
  s_tests : list (str * list str);                          (* name and command *)
  s_dirs : list str                                         (* directories added *)
}.
Inductive result := Done (s : cstate) | Failed | Exhausted.

Definition with_vars (v : variables) (s : cstate) : cstate :=
  {| s_vars := v; s_macros := s_macros s; s_targets := s_targets s; s_tests := s_tests s; s_dirs := s_dirs s |}.
Definition with_macro (n : str) (f : list str) (b : list command) (s : cstate) : cstate :=
  {| s_vars := s_vars s; s_macros := (n, (f, b)) :: s_macros s; s_targets := s_targets s; s_tests := s_tests s; s_dirs := s_dirs s |}.
Definition with_targets (l : list target) (s : cstate) : cstate :=
  {| s_vars := s_vars s; s_macros := s_macros s; s_targets := l; s_tests := s_tests s; s_dirs := s_dirs s |}.
Definition with_test (t : str * list str) (s : cstate) : cstate :=
  {| s_vars := s_vars s; s_macros := s_macros s; s_targets := s_targets s; s_tests := s_tests s ++ [t]; s_dirs := s_dirs s |}.
Definition with_dir (d : str) (s : cstate) : cstate :=
  {| s_vars := s_vars s; s_macros := s_macros s; s_targets := s_targets s; s_tests := s_tests s; s_dirs := s_dirs s ++ [d] |}.

(** cmTarget: names are global *)
Definition is_target (n : str) (l : list target) : bool := existsb (fun t => str_eqb (t_name t) n) l.
Definition add_target (k : kind) (dir n : str) (sources : list str) (s : cstate) : result :=
  if is_target n (s_targets s) then Failed
  else Done (with_targets (s_targets s ++ [{| t_name := n; t_kind := k; t_sources := map (join dir) sources;
                                              t_properties := []; t_links := [] |}]) s).
Definition change_target (n : str) (f : target -> target) (s : cstate) : result :=
  if is_target n (s_targets s)
  then Done (with_targets (map (fun t => if str_eqb (t_name t) n then f t else t) (s_targets s)) s)
  else Failed.
Fixpoint pairs (l : list str) : option (list (str * str)) :=
  match l with
  | [] => Some []
  | k :: v :: r => option_map (cons (k, v)) (pairs r)
  | [_] => None
  end.

(** ** Conditions (cmConditionEvaluator; policies of CMake 3.20) *)
Definition upper (s : str) : str := map toupper s.
Definition false_constant (s : str) : bool :=
  is_nil s || existsb (str_eqb (upper s)) [$"0"; $"OFF"; $"NO"; $"FALSE"; $"N"; $"IGNORE"; $"NOTFOUND"]
  || str_eqb (skipn (length s - 9) (upper s)) $"-NOTFOUND".
Definition true_constant (s : str) : bool := existsb (str_eqb (upper s)) [$"1"; $"ON"; $"YES"; $"TRUE"; $"Y"].
Definition contains (p s : str) : bool := match find_sub p s with Some _ => true | None => false end.
(** [MATCHES] for a pattern of letters and digits only. *)
Definition condition (f : files) (v : variables) (l : list (bool * str)) : option bool :=
  let value (q : bool) (a : str) := if q then a else match v a with Some x => x | None => a end in
  match l with
  | [(q, a)] => Some (if true_constant a then true else if false_constant a then false
                      else if q then false
                      else match v a with Some x => negb (false_constant x) | None => false end)
  | [(false, a); (_, b)] => if str_eqb a $"EXISTS" then Some (isfile f b) else None
  | [(q, a); (false, m); (r, p)] => if str_eqb m $"MATCHES" && forallb (fun c => isalpha c || isdigit c) p
                                    then Some (contains p (value q a))
                                    else if str_eqb m $"STREQUAL" then Some (str_eqb (value q a) (value r p))
                                    else if negb q && str_eqb a $"NOT" && str_eqb m $"EXISTS" then Some (negb (isfile f p))
                                    else None
  | _ => None
  end.

(** ** Macros (cmMacroCommand): the references to the parameters are replaced in the commands of the body *)
Definition bindings (formals actuals : list str) : variables :=
  let rest := skipn (length formals) actuals in
  fun n => if existsb (str_eqb n) formals
           then option_map snd (find (fun p => str_eqb n (fst p)) (combine formals actuals))
           else if str_eqb n $"ARGN" then Some (list_of rest)
           else if str_eqb n $"ARGV" then Some (list_of actuals)
           else if str_eqb n $"ARGC" then Some (show_Z (Z.of_nat (length actuals)))
           else None.
Definition put (b : variables) (t : list seg) : list seg :=
  flat_map (fun s => match s with
                     | Lit c => [Lit c]
                     | Ref n => match b n with Some x => map Lit x | None => [Ref n] end
                     end) t.
Definition instance (b : variables) (body : list command) : list command :=
  map (fun c => {| c_name := c_name c;
                   c_args := map (fun a => {| a_quoted := a_quoted a; a_text := put b (a_text a) |}) (c_args c) |}) body.

(** ** Running *)
Section Run.
  Variable files : ModelScaffold.files.
  Variable binary : str.                                   (* the build directory *)
  Variable config : variables -> option variables.         (* INCLUDE(OCLintConfig) *)

  (** Commands without blocks or files to read.  [None]: not one of them. *)
  Definition builtin (dir : str) (c : command) (s : cstate) : option result :=
    let l := plain_values (s_vars s) (c_args c) in
    let n := c_name c in
    if str_eqb n $"set" then
      Some (match l with
            | [] => Failed
            | x :: vs => if existsb (fun v => str_eqb v $"CACHE" || str_eqb v $"PARENT_SCOPE") vs then Failed
                         else Done (with_vars (assign (s_vars s) x (if is_nil vs then None else Some (list_of vs))) s)
            end)
    else if str_eqb n $"add_library" then
      Some (match l with
            | x :: k :: srcs => if str_eqb k $"SHARED" then add_target Shared dir x srcs s
                                else if str_eqb k $"STATIC" then add_target Static dir x srcs s
                                else if existsb (str_eqb k) [$"MODULE"; $"OBJECT"; $"INTERFACE"; $"ALIAS"; $"UNKNOWN"] then Failed
                                else add_target Static dir x (k :: srcs) s
            | _ => Failed
            end)
    else if str_eqb n $"add_executable" then
      Some (match l with x :: srcs => add_target Executable dir x srcs s | [] => Failed end)
    else if str_eqb n $"set_target_properties" then
      Some (match l with
            | x :: p :: kvs =>
                match str_eqb p $"PROPERTIES", pairs kvs with
                | true, Some kvs => change_target x (fun t => {| t_name := t_name t; t_kind := t_kind t; t_sources := t_sources t;
                                                                 t_properties := t_properties t ++ kvs; t_links := t_links t |}) s
                | _, _ => Failed
                end
            | _ => Failed
            end)
    else if str_eqb n $"target_link_libraries" then
      Some (match l with
            | x :: libs => change_target x (fun t => {| t_name := t_name t; t_kind := t_kind t; t_sources := t_sources t;
                                                        t_properties := t_properties t; t_links := t_links t ++ libs |}) s
            | [] => Failed
            end)
    else if str_eqb n $"add_test" then
      Some (match l with x :: cmd :: more => Done (with_test (x, cmd :: more) s) | _ => Failed end)
    else if str_eqb n $"project" then
      Some (match l with
            | x :: _ => Done (with_vars (assign (assign (s_vars s) (x ++ $"_SOURCE_DIR") (Some dir)) $"PROJECT_BINARY_DIR" (Some binary)) s)
            | [] => Failed
            end)
    else if str_eqb n $"include" then
      Some (match l with
            | [x] => if str_eqb x $"OCLintConfig"
                     then match config (s_vars s) with Some v => Done (with_vars v s) | None => Failed end else Failed
            | _ => Failed
            end)
    (* search paths: no effect on what is built *)
    else if existsb (str_eqb n) [$"cmake_minimum_required"; $"include_directories"; $"link_directories"] then Some (Done s)
    else None.

  Definition current : str := $"CMAKE_CURRENT_SOURCE_DIR".
  Fixpoint run (fuel : nat) (dir : str) (l : list command) (s : cstate) : result :=
    match fuel with
    | O => Exhausted
    | S f =>
      let next rest r := match r with Done s' => run f dir rest s' | _ => r end in
      match l with
      | [] => Done s
      | c :: rest =>
          let n := c_name c in
          let args := plain_values (s_vars s) (c_args c) in
          if str_eqb n $"if" then
            match branches 0 rest, condition files (s_vars s) (values (s_vars s) (c_args c)) with
            | Some b, Some true => next (i_rest b) (run f dir (i_then b) s)
            | Some b, Some false => next (i_rest b) (run f dir (i_else b) s)
            | _, _ => Failed
            end
          else if str_eqb n $"foreach" then
            match block $"foreach" $"endforeach" 0 rest, args with
            | Some (body, rest), x :: items =>
                let old := s_vars s x in
                next rest
                  (match (fix each items s :=
                            match items with
                            | [] => Done s
                            | i :: is => match run f dir body (with_vars (assign (s_vars s) x (Some i)) s) with
                                         | Done s' => each is s'
                                         | r => r
                                         end
                            end) items s with
                   | Done s' => Done (with_vars (assign (s_vars s') x old) s')
                   | r => r
                   end)
            | _, _ => Failed
            end
          else if str_eqb n $"macro" then
            match block $"macro" $"endmacro" 0 rest, args with
            | Some (body, rest), x :: formals => run f dir rest (with_macro (map tolower x) formals body s)
            | _, _ => Failed
            end
          else if str_eqb n $"add_subdirectory" then
            match args with
            | [d] =>
                let sub := join dir d in
                match files (join sub $"CMakeLists.txt") with
                | Some text =>
                    if existsb (str_eqb sub) (s_dirs s) then Failed
                    else match commands_in text with
                         | Some l =>
                             next rest
                               (match run f sub l (with_dir sub (with_vars (assign (s_vars s) current (Some sub)) s)) with
                                | Done s' => Done (with_vars (s_vars s) s')
                                | r => r
                                end)
                         | None => Failed
                         end
                | None => Failed
                end
            | _ => Failed
            end
          else match find (fun m => str_eqb (fst m) n) (s_macros s) with
               | Some (_, (formals, body)) =>
                   if length formals <=? length args then next rest (run f dir (instance (bindings formals args) body) s)
                   else Failed
               | None => match builtin dir c s with Some r => next rest r | None => Failed end
               end
      end
    end.

  (** cmake DIR with the variables given on its command line; every source has to be there. *)
  Definition configure (fuel : nat) (dir : str) (given : variables) : result :=
    match files (join dir $"CMakeLists.txt") with
    | Some text =>
        match commands_in text with
        | Some l =>
            match run fuel dir l {| s_vars := assign given current (Some dir); s_macros := []; s_targets := []; s_tests := []; s_dirs := [] |} with
            | Done s => if forallb (fun t => forallb (isfile files) (t_sources t)) (s_targets s) then Done s else Failed
            | r => r
            end
        | None => Failed
        end
    | None => Failed
    end.
End Run.
