(** * Model of oclint-driver/main_docgen.cpp: the rule documentation generator *)
From Verif Require Import Base ModelResults ModelConfig ModelFilter ModelOptions ModelMain.

(** What the generator asks a rule object for (RuleBase.h, virtual functions, DOCGEN build).
    [d_thresholds] is a std::map: one entry per key, in key order. *)
Record docrule := {
  d_name : str; d_identifier : str; d_category : str; d_fileName : str;
  d_since : str; d_description : str; d_example : str;
  d_thresholds : list (str * str);
  d_enableSuppress : bool; d_attributeName : str;
  d_additional : str
}.

(** ** Files and output streams

    [fsys] maps files to contents; a path names a file through [resolve] (None: it cannot be
    opened for writing, e.g. a missing directory), so two paths may name the same file.
    Every write below ends in [endl], so it reaches the file before the next stream is used. *)
Definition fsys := str -> option str.
Definition fs_set (fs : fsys) (f : str) (c : str) : fsys :=
  fun g => if str_eqb g f then Some c else fs g.
Record stream := { s_file : option str; s_off : nat }.

(** [new ofstream(path)]: creates or truncates; on failure every later write is ignored. *)
Definition open_out (resolve : str -> option str) (path : str) (fs : fsys) : fsys * stream :=
  match resolve path with
  | None => (fs, {| s_file := None; s_off := 0 |})
  | Some f => (fs_set fs f [], {| s_file := Some f; s_off := 0 |})
  end.

(** [write] at the offset of the open file description; a gap is filled with NUL bytes. *)
Definition write_at (old : str) (off : nat) (data : str) : str :=
  firstn off (old ++ repeat "000"%char off) ++ data ++ skipn (off + length data) old.
Definition put (data : str) (x : fsys * stream) : fsys * stream :=
  let '(fs, s) := x in
  match s_file s with
  | None => (fs, s)
  | Some f =>
      let old := match fs f with Some c => c | None => [] end in
      (fs_set fs f (write_at old (s_off s) data),
       {| s_file := Some f; s_off := s_off s + length data |})
  end.
Definition putl (data : str) (x : fsys * stream) : fsys * stream := put (data ++ [NL]) x.

(** main_docgen.cpp:106-109, 120-123: [n] times the same character, one by one. *)
Fixpoint put_times (n : nat) (data : str) (x : fsys * stream) : fsys * stream :=
  match n with O => x | S n' => put_times n' data (put data x) end.

(** main_docgen.cpp:85-95 *)
Definition writeIndexHeader (count : Z) (x : fsys * stream) : fsys * stream :=
  let x := putl $"Rule Index" x in
  let x := putl $"==========" x in
  let x := putl [] x in
  let x := putl ($"OCLint |release| includes " ++ show_Z count ++ $" rules.") x in
  let x := putl [] x in
  let x := putl $".. toctree::" x in
  let x := putl $"   :maxdepth: 2" x in
  putl [] x.

(** main_docgen.cpp:97-100 *)
Definition writeCategoryToIndex (category : str) (x : fsys * stream) : fsys * stream :=
  putl ($"   " ++ category) x.

(** main_docgen.cpp:102-111.  For an empty string [category[0]] is the terminating NUL and
    writing NUL back to it is allowed. *)
Definition capitalised (category : str) : str :=
  match category with [] => [] | c :: t => toupper c :: t end.
Definition writeCategoryHeader (category : str) (x : fsys * stream) : fsys * stream :=
  let category := capitalised category in
  let x := putl category x in
  let x := put_times (length category) $"=" x in
  putl [] (putl [] x).

(** main_docgen.cpp:145-149 *)
Fixpoint writeThresholds (m : list (str * str)) (x : fsys * stream) : fsys * stream :=
  match m with
  | [] => x
  | (k, v) :: m' => writeThresholds m' (putl ($"    " ++ v) (putl k x))
  end.

(** main_docgen.cpp:113-166 *)
Definition writeRuleToCategory (r : docrule) (x : fsys * stream) : fsys * stream :=
  let path := $"oclint-rules/rules/" ++ d_category r ++ $"/" ++ d_fileName r in
  let x := putl (d_identifier r) x in
  let x := put_times (length (d_identifier r)) $"-" x in
  let x := putl [] (putl [] x) in
  let x := putl [] (putl ($"**Since: " ++ d_since r ++ $"**") x) in
  let x := putl [] (putl ($"**Name: " ++ d_name r ++ $"**") x) in
  let x := putl [] (putl (d_description r) x) in
  let x := putl [] (putl ($"This rule is defined by the following class: " ++
                          $"`" ++ path ++ $" " ++
                          $"<https://github.com/oclint/oclint/blob/master/" ++ path ++ $">`_") x) in
  let x := putl [] (putl $"**Example:**" x) in
  let x := putl [] (putl (d_example r) x) in
  let x := match d_thresholds r with
           | [] => x
           | m => putl [] (writeThresholds m (putl [] (putl $"**Thresholds:**" x)))
           end in
  let x := if d_enableSuppress r
           then let x := putl [] (putl $"**Suppress:**" x) in
                let x := putl [] (putl $".. code-block:: cpp" x) in
                putl [] (putl ($"    __attribute__((annotate(""oclint:suppress[" ++
                               d_attributeName r ++ $"]"")))") x)
           else x in
  match d_additional r with [] => x | doc => putl doc x end.

(** main_docgen.cpp:168-175; [date] is what asctime answers, with its line feed. *)
Definition writeFooter (date : str) (x : fsys * stream) : fsys * stream :=
  let x := putl [] x in
  let x := put ($".. Generated on " ++ date) x in
  putl [] x.

(** ** main_docgen.cpp:190-209: grouping.  [rulesMapping] as an association list. *)
Definition rmap := list (str * list docrule).
Fixpoint rmap_get (m : rmap) (k : str) : list docrule :=
  match m with
  | [] => []
  | (k', v) :: m' => if str_eqb k' k then v else rmap_get m' k
  end.
Fixpoint rmap_put (m : rmap) (k : str) (v : list docrule) : rmap :=
  match m with
  | [] => [(k, v)]
  | (k', v') :: m' => if str_eqb k' k then (k', v) :: m' else (k', v') :: rmap_put m' k v
  end.
Definition group_step (st : list str * rmap) (r : docrule) : list str * rmap :=
  let '(categories, m) := st in
  let category := d_category r in
  if negb (existsb (str_eqb category) categories)
  then (categories ++ [category], rmap_put m category [r])
  else (categories, rmap_put m category (rmap_get m category ++ [r])).
Definition group (rules : list docrule) : list str * rmap :=
  fold_left group_step rules ([], []).

(** [std::string::operator<]: bytes compared as unsigned numbers. *)
Fixpoint str_ltb (a b : str) : bool :=
  match a, b with
  | _, [] => false
  | [], _ :: _ => true
  | x :: a', y :: b' =>
      if code x <? code y then true
      else if code y <? code x then false
      else str_ltb a' b'
  end.

(** main_docgen.cpp:212 *)
Definition docRulePath : str := $"../build/oclint-docs/rules/".

Section Docgen.
  Variable resolve : str -> option str.
  (* std::sort, on the categories and on the rules of one category *)
  Variable sort_categories : list str -> list str.
  Variable sort_rules : list docrule -> list docrule.
  (* what asctime answers at the n-th footer *)
  Variable now : nat -> str.

  (** main_docgen.cpp:234-237 *)
  Definition write_rules (rs : list docrule) (x : fsys * stream) : fsys * stream :=
    fold_left (fun x r => writeRuleToCategory r x) rs x.

  (** main_docgen.cpp:218-241; [i] counts the footers written so far. *)
  Fixpoint write_categories (m : rmap) (categories : list str) (i : nat) (x : fsys * stream)
    : fsys * stream :=
    match categories with
    | [] => x
    | category :: categories' =>
        let '(fs, index) := writeCategoryToIndex category x in
        let y := open_out resolve (docRulePath ++ category ++ $".rst") fs in
        let y := writeCategoryHeader category y in
        let y := write_rules (sort_rules (rmap_get m category)) y in
        let '(fs, _) := writeFooter (now i) y in
        write_categories m categories' (S i) (fs, index)
    end.

  (** main_docgen.cpp:190-246 *)
  Definition generate (rules : list docrule) (fs : fsys) : fsys :=
    let '(categories, m) := group rules in
    let categories := sort_categories categories in
    let x := open_out resolve (docRulePath ++ $"index.rst") fs in
    let x := writeIndexHeader (Z.of_nat (length rules)) x in
    let x := write_categories m categories 0 x in
    fst (writeFooter (now (length categories)) x).

  (** main_docgen.cpp:56-74 and 184-188.  [loaded]: what loading the rule libraries
      (main_docgen.cpp:22-28, the same code as main.cpp, see ModelMain) left registered and
      how it ended.  Option parsing before that and the version printer are not modelled. *)
  Definition docgen (loaded : list docrule * outcome unit) (fs : fsys)
    : fsys * list event * ending :=
    match loaded with
    | (_, UB) => (fs, [], Undefined)
    | (_, Exc m) => (fs, [errorLine m], Exit RULE_NOT_FOUND)
    | ([], Val _) => (fs, [errorLine $"no rule loaded"], Exit RULE_NOT_FOUND)
    | (rules, Val _) => (generate rules fs, [], Exit SUCCESS)
    end.
End Docgen.
