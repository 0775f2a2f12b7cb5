(** * Specification vocabulary for the documentation generator (C73, C107) *)
From Verif Require Import Base ModelDocgen.
From Coq Require Import Permutation Sorting.Sorted.

(** Dictionary order on byte strings. *)
Definition before (a b : str) : Prop :=
  exists p,
    (exists c t, a = p /\ b = p ++ c :: t)
    \/ (exists c d s t, a = p ++ c :: s /\ b = p ++ d :: t /\ code c < code d).
Definition not_after (a b : str) : Prop := ~ before b a.

(** What the C++ standard promises of std::sort with a comparison of keys. *)
Definition sorts_by {A} (key : A -> str) (sort : list A -> list A) : Prop :=
  forall l, Permutation (sort l) l /\ StronglySorted not_after (map key (sort l)).

Definition unlines (ls : list str) : str := flat_map (fun l => l ++ [NL]) ls.

(** The index page: the number of rules, then one entry per category. *)
Definition index_text (n : nat) (categories : list str) (date : str) : str :=
  unlines ([$"Rule Index";
            $"==========";
            [];
            $"OCLint |release| includes " ++ show_Z (Z.of_nat n) ++ $" rules.";
            [];
            $".. toctree::";
            $"   :maxdepth: 2";
            []]
           ++ map (fun c => $"   " ++ c) categories)
  ++ [NL] ++ $".. Generated on " ++ date ++ [NL].

(** A heading with an underline as long as the title. *)
Definition heading (mark : ascii) (title : str) : list str :=
  [title; repeat mark (length title); []].

Definition source_path (r : docrule) : str :=
  $"oclint-rules/rules/" ++ d_category r ++ $"/" ++ d_fileName r.
Definition rule_lines (r : docrule) : list str :=
  heading "-"%char (d_identifier r)
  ++ [$"**Since: " ++ d_since r ++ $"**"; []]
  ++ [$"**Name: " ++ d_name r ++ $"**"; []]
  ++ [d_description r; []]
  ++ [$"This rule is defined by the following class: `" ++ source_path r ++
      $" <https://github.com/oclint/oclint/blob/master/" ++ source_path r ++ $">`_"; []]
  ++ [$"**Example:**"; []; d_example r; []]
  ++ (if is_nil (d_thresholds r) then []
      else [$"**Thresholds:**"; []]
           ++ flat_map (fun kv => [fst kv; $"    " ++ snd kv]) (d_thresholds r) ++ [[]])
  ++ (if d_enableSuppress r
      then [$"**Suppress:**"; []; $".. code-block:: cpp"; [];
            $"    __attribute__((annotate(""oclint:suppress[" ++ d_attributeName r ++ $"]"")))"; []]
      else [])
  ++ (if is_nil (d_additional r) then [] else [d_additional r]).

Definition title_of (category : str) : str :=
  match category with [] => [] | c :: t => toupper c :: t end.
Definition page_text (category : str) (rs : list docrule) (date : str) : str :=
  unlines (heading "="%char (title_of category) ++ flat_map rule_lines rs)
  ++ [NL] ++ $".. Generated on " ++ date ++ [NL].

Definition index_path : str := $"../build/oclint-docs/rules/index.rst".
Definition page_path (category : str) : str :=
  $"../build/oclint-docs/rules/" ++ category ++ $".rst".

(** The content of the file a path names. *)
Definition content (resolve : str -> option str) (fs : fsys) (path : str) : option str :=
  match resolve path with Some f => fs f | None => None end.

(** All output paths can be opened and name different files. *)
Definition separate_outputs (resolve : str -> option str) (rules : list docrule) : Prop :=
  let used p := p = index_path \/ exists r, In r rules /\ p = page_path (d_category r) in
  (forall p, used p -> resolve p <> None)
  /\ (forall p q, used p -> used q -> resolve p = resolve q -> p = q)
  /\ (forall r, In r rules -> d_category r <> $"index").
