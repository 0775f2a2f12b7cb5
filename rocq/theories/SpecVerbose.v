(** * Specification vocabulary for the progress log *)
From Verif Require Import Base ModelResults ModelConfig ModelFilter ModelOptions ModelMain ModelDriver
  SpecFilter SpecDriver.

(** ** What the log says *)
Inductive saying :=
| Compiles (file : str) (success : bool)        (* a compile command was tried *)
| Analyzes (file : str)                         (* the rules were applied to a unit *)
| Checks (file : str) (success : bool).         (* the static analyzer was run *)
Definition line (s : saying) : str :=
  match s with
  | Compiles f true => $"Compiling " ++ f ++ $" ..." ++ [NL] ++ $" - Success" ++ [NL]
  | Compiles f false => $"Compiling " ++ f ++ $" ..." ++ [NL] ++ $" - Failed" ++ [NL]
  | Analyzes f => $"Analyzing " ++ f ++ $" - Done" ++ [NL]
  | Checks f true => $"Clang Static Analyzer " ++ f ++ $" - Done" ++ [NL]
  | Checks f false => $"Clang Static Analyzer " ++ f ++ $" - Finished with Failure" ++ [NL]
  end.
Definition said (l : list saying) : str := concat (map line l).
(** The last, unfinished saying: what was going on when the run stopped. *)
Inductive stopped_while :=
| WhileCompiling (file : str) | WhileAnalyzing (file : str) | WhileChecking (file : str).
Definition unfinished (s : stopped_while) : str :=
  match s with
  | WhileCompiling f => $"Compiling " ++ f ++ $" ..." ++ [NL]
  | WhileAnalyzing f => $"Analyzing " ++ f
  | WhileChecking f => $"Clang Static Analyzer " ++ f
  end.

Definition no_nul (s : str) : Prop := Forall (fun c => code c <> 0) s.

Section Story.
  Context {CTX ST : Type}.
  Variable tc : toolchain CTX.
  Variable takeoff : nat -> CTX -> ST -> outcome (list violation * ST).
  Variable rules : list nat.
  Variable path : CTX -> str.

  (** The rules, run one after the other on a unit, raise an exception. *)
  Definition raises (ctx : CTX) (st : ST) : Prop :=
    exists done a rest per_rule st1 what, rules = done ++ a :: rest
      /\ unit_run takeoff done ctx st per_rule st1 /\ takeoff a ctx st1 = Exc what.
  Definition bad (fr : frontend_result CTX) : Prop := forall ctx, ~ good fr ctx.
  Definition cannot_compile (checker : bool) (cwd : str) (fc : str * command) : Prop :=
    forall cwd' fr, ~ unit_compiles tc checker cwd fc cwd' fr.

  (** File after file: each is compiled and, when good, analysed at once.  Ends at the first
      trouble or with the directory reached. *)
  Inductive file_by_file : str -> ST -> list (str * command) -> list saying -> stopped_while + str -> Prop :=
  | ff_end : forall cwd st, file_by_file cwd st [] [] (inr cwd)
  | ff_bad : forall cwd st fc cwd1 fr cmds l e, unit_compiles tc false cwd fc cwd1 fr -> bad fr ->
      file_by_file cwd1 st cmds l e ->
      file_by_file cwd st (fc :: cmds) (Compiles (fst fc) false :: l) e
  | ff_good : forall cwd st fc cwd1 fr ctx per_rule st1 cmds l e, unit_compiles tc false cwd fc cwd1 fr -> good fr ctx ->
      unit_run takeoff rules ctx st per_rule st1 -> file_by_file cwd1 st1 cmds l e ->
      file_by_file cwd st (fc :: cmds) (Compiles (fst fc) true :: Analyzes (path ctx) :: l) e
  | ff_stuck : forall cwd st fc cmds, cannot_compile false cwd fc ->
      file_by_file cwd st (fc :: cmds) [] (inl (WhileCompiling (fst fc)))
  | ff_raised : forall cwd st fc cwd1 fr ctx cmds, unit_compiles tc false cwd fc cwd1 fr -> good fr ctx -> raises ctx st ->
      file_by_file cwd st (fc :: cmds) [Compiles (fst fc) true] (inl (WhileAnalyzing (path ctx))).
  (** Every command is tried before anything else happens. *)
  Inductive all_tried (checker : bool) (mk : str -> bool -> saying) (wh : str -> stopped_while)
    : str -> list (str * command) -> list saying -> stopped_while + (str * list CTX) -> Prop :=
  | at_end : forall cwd, all_tried checker mk wh cwd [] [] (inr (cwd, []))
  | at_bad : forall cwd fc cwd1 fr cmds l e, unit_compiles tc checker cwd fc cwd1 fr -> bad fr ->
      all_tried checker mk wh cwd1 cmds l e -> all_tried checker mk wh cwd (fc :: cmds) (mk (fst fc) false :: l) e
  | at_good : forall cwd fc cwd1 fr ctx cmds l cwd2 ctxs, unit_compiles tc checker cwd fc cwd1 fr -> good fr ctx ->
      all_tried checker mk wh cwd1 cmds l (inr (cwd2, ctxs)) ->
      all_tried checker mk wh cwd (fc :: cmds) (mk (fst fc) true :: l) (inr (cwd2, ctx :: ctxs))
  | at_good_stuck : forall cwd fc cwd1 fr ctx cmds l s, unit_compiles tc checker cwd fc cwd1 fr -> good fr ctx ->
      all_tried checker mk wh cwd1 cmds l (inl s) ->
      all_tried checker mk wh cwd (fc :: cmds) (mk (fst fc) true :: l) (inl s)
  | at_stuck : forall cwd fc cmds, cannot_compile checker cwd fc ->
      all_tried checker mk wh cwd (fc :: cmds) [] (inl (wh (fst fc))).
  Inductive all_analyzed : ST -> list CTX -> list saying -> option stopped_while -> Prop :=
  | aa_end : forall st, all_analyzed st [] [] None
  | aa_unit : forall st ctx per_rule st1 ctxs l e, unit_run takeoff rules ctx st per_rule st1 ->
      all_analyzed st1 ctxs l e -> all_analyzed st (ctx :: ctxs) (Analyzes (path ctx) :: l) e
  | aa_raised : forall st ctx ctxs, raises ctx st -> all_analyzed st (ctx :: ctxs) [] (Some (WhileAnalyzing (path ctx))).
  (** The analysis by the rules, with or without global analysis. *)
  Inductive rules_story : bool -> str -> ST -> list (str * command) -> list saying -> stopped_while + str -> Prop :=
  | rs_each : forall cwd st cmds l e, file_by_file cwd st cmds l e -> rules_story false cwd st cmds l e
  | rs_all_stuck : forall cwd st cmds l s, all_tried false Compiles WhileCompiling cwd cmds l (inl s) ->
      rules_story true cwd st cmds l (inl s)
  | rs_all : forall cwd st cmds l cwd1 ctxs l', all_tried false Compiles WhileCompiling cwd cmds l (inr (cwd1, ctxs)) ->
      all_analyzed st ctxs l' None -> rules_story true cwd st cmds (l ++ l') (inr cwd1)
  | rs_all_raised : forall cwd st cmds l cwd1 ctxs l' s, all_tried false Compiles WhileCompiling cwd cmds l (inr (cwd1, ctxs)) ->
      all_analyzed st ctxs l' (Some s) -> rules_story true cwd st cmds (l ++ l') (inl s).
  (** The whole story; [None]: it came to its end. *)
  Inductive story : bool -> bool -> str -> ST -> list (str * command) -> list saying -> option stopped_while -> Prop :=
  | st_stopped : forall g k cwd st cmds l s, rules_story g cwd st cmds l (inl s) -> story g k cwd st cmds l (Some s)
  | st_rules_only : forall g cwd st cmds l cwd1, rules_story g cwd st cmds l (inr cwd1) -> story g false cwd st cmds l None
  | st_checked : forall g cwd st cmds l cwd1 l' p, rules_story g cwd st cmds l (inr cwd1) ->
      all_tried true Checks WhileChecking cwd1 cmds l' (inr p) -> story g true cwd st cmds (l ++ l') None
  | st_check_stuck : forall g cwd st cmds l cwd1 l' s, rules_story g cwd st cmds l (inr cwd1) ->
      all_tried true Checks WhileChecking cwd1 cmds l' (inl s) -> story g true cwd st cmds (l ++ l') (Some s).
End Story.

(** ** Standard output as the reader sees it *)

(** [out] contains the two texts, each in order, interleaved in some way. *)
Inductive interleaved : str -> str -> str -> Prop :=
| il_nil : interleaved [] [] []
| il_left : forall c a b out, interleaved a b out -> interleaved (c :: a) b (c :: out)
| il_right : forall c a b out, interleaved a b out -> interleaved a (c :: b) (c :: out).
