(** * Specification vocabulary for the program as a whole *)
From Verif Require Import Base ModelResults ModelConfig ModelFilter ModelOptions ModelMain ModelDriver
  ModelSource ModelAST ModelRules ModelRulesVars ModelRuleTable ModelProgram
  SpecFilter SpecAST SpecSource SpecRules SpecDriver.

Definition main_unit (x : tuctx) : tunit := e_unit (cx_env x).

(** Units compiled from the same main file (several compile commands for one file) show the
    same comments and declarations to the suppression helpers. *)
Definition agree (x y : tuctx) : Prop :=
  u_path (main_unit x) = u_path (main_unit y) ->
  u_comments (main_unit x) = u_comments (main_unit y) /\ u_top (main_unit x) = u_top (main_unit y).
(** The addresses of the syntax-tree nodes of a unit. *)
Definition address (x : tuctx) (i : nat) : Prop :=
  exists t root n, In (t, root) (cx_tops x) /\ In n (nodes root) /\ n_id n = i.
Definition disjoint_memory (x y : tuctx) : Prop := forall i, address x i -> ~ address y i.
(** Any two units of a run agree and live at different addresses. *)
Inductive separate : list tuctx -> Prop :=
| sep_nil : separate []
| sep_cons : forall x l, (forall y, In y l -> agree x y /\ disjoint_memory x y) -> separate l -> separate (x :: l).

(** Run alone on the unit [x] alone, in a fresh process, rule [k] records [vs]. *)
Definition alone (c : cfg) (k : nat) (x : tuctx) (vs : list violation) : Prop :=
  exists st, analyze (takeoff c) [k] [x] c_empty r_initial
             = ({| c_collection := [vs]; c_errors := []; c_warnings := []; c_bugs := [] |}, Val st).

(** The units the driver hands to the rules: those that compile without error, in order. *)
Definition compiled (i : inputs) (xs : list tuctx) : Prop :=
  exists frs cwd, units_compile (in_tools i) false (in_cwd i) (commands_of (in_tools i) (in_sources i)) frs cwd
    /\ good_units frs xs.
(** One row per unit, in it one entry per rule: what the rule records alone. *)
Definition each_alone (c : cfg) (rules : list nat) (xs : list tuctx) (table : list (list (list violation))) : Prop :=
  Forall2 (fun x row => Forall2 (fun k vs => alone c k x vs) rules row) xs table.
(** The violations of rule [k] in a list. *)
Definition of_rule (k : nat) (l vs : list violation) : Prop :=
  sublist_where (fun v => v_rule v = Some k) l vs.

(** ** What a rule records *)
(** Different top-level declarations are different objects. *)
Definition well_formed (x : tuctx) : Prop := NoDup (map (fun t => t_id (fst t)) (cx_tops x)).
(** The trees of the top-level declarations the rule inspects, in order. *)
Definition examined (x : tuctx) (s : shipped) (decls : list node) : Prop :=
  exists sel, sublist_where (fun t => inspected (cx_lang x) (sh_supportedLanguages s) (sh_supportedCUDA s) (fst t))
                (cx_tops x) sel
    /\ decls = map snd sel.
(** What the rule has to say about these declarations; C48-C65, C70-C72, C74-C92 and C98-C106
    characterise each rule. *)
Inductive finds (c : cfg) (x : tuctx) (s : shipped) : behaviour -> list node -> list report -> Prop :=
| fi_visit : forall visit decls, finds c x s (BVisit visit) decls (flat_map (visit x) (flat_map nodes decls))
| fi_checked : forall rule decls rss, Forall2 (fun d rs => rule c x d = Val rs) decls rss ->
    finds c x s (BChecked rule) decls (concat rss)
| fi_setup : forall rule decls rs, prepared (cx_lang x) (sh_supportedLanguages s) (sh_supportedCUDA s) ->
    rule c x decls = Val rs -> finds c x s (BSetUp rule) decls rs
| fi_not_setup : forall rule, ~ prepared (cx_lang x) (sh_supportedLanguages s) (sh_supportedCUDA s) -> finds c x s (BSetUp rule) [] []
| fi_whole : forall rule decls, finds c x s (BWhole rule) decls (rule decls)
| fi_bases : forall visit decls, finds c x s (BBases visit) decls (map base_report (flat_map visit (flat_map nodes decls)))
| fi_stack : forall decls rs, ShortVariableNameRule c [] decls = Val rs -> finds c x s BStack decls rs.
(** A finding of rule [k] on unit [x] that no annotation or comment hides. *)
Definition open_finding (c : cfg) (x : tuctx) (k : nat) (r : report) : Prop :=
  exists s b decls rs, nth_error shipped_behaviours k = Some (s, b) /\ examined x s decls
    /\ finds c x s b decls rs /\ In r rs /\ recorded (cx_env x) (sh_attributeName s) r.
(** A line longer than the limit that nothing hides. *)
Definition open_line (c : cfg) (x : tuctx) (line : Z * str) : Prop :=
  exists T c' ls, intForKey c $"LONG_LINE" 100 = Val (T, c') /\ lines_of (u_content (main_unit x)) ls
    /\ In line (numbered 1 ls) /\ (T < Z.of_nat (length (snd line)))%Z
    /\ ~ comment_on (main_unit x) (fst line) /\ ~ in_suppressed_decl (main_unit x) $"long line" (fst line).
