(** * Specification vocabulary: suppressing in a unit that is otherwise unchanged *)
From Verif Require Import Base ModelResults ModelSource ModelAST ModelRules SpecRules ModelProgram SpecSource SpecProgram.

(** Same trees, language and answers about expressions. *)
Definition same_code (x x' : tuctx) : Prop :=
  cx_lang x' = cx_lang x /\ cx_tops x' = cx_tops x /\ cx_evaluate x' = cx_evaluate x
  /\ cx_lines x' = cx_lines x /\ cx_sameExpr x' = cx_sameExpr x
  /\ (forall i, e_loc (cx_env x') i = e_loc (cx_env x) i).
(** [x'] is [x] with a suppressing comment on one more line; nothing moves. *)
Definition commented (x x' : tuctx) (line : Z) : Prop :=
  same_code x x'
  /\ (forall i, e_decl (cx_env x') i = e_decl (cx_env x) i /\ e_parents (cx_env x') i = e_parents (cx_env x) i)
  /\ (forall l, comment_on (main_unit x') l <-> comment_on (main_unit x) l \/ l = line).

(** One more annotation on a declaration. *)
Inductive one_more (text : str) : decl -> decl -> Prop :=
| om : forall a m, one_more text (Decl a m) (Decl (a ++ [text]) m).
(** ... on one of the declarations met on the way up. *)
Inductive one_more_above (text : str) : parents -> parents -> Prop :=
| oma_here : forall d d' up others, one_more text d d' ->
    one_more_above text (Parents (PDecl d) up others) (Parents (PDecl d') up others)
| oma_decl : forall d up up' others, one_more_above text up up' ->
    one_more_above text (Parents (PDecl d) up others) (Parents (PDecl d) up' others)
| oma_stmt : forall up up' others, one_more_above text up up' ->
    one_more_above text (Parents PStmt up others) (Parents PStmt up' others).
(** [x'] is [x] with the annotation on declaration [i0]; [under] are the nodes below it. *)
Definition annotated (x x' : tuctx) (text : str) (i0 : nat) (under : nat -> Prop) : Prop :=
  same_code x x'
  /\ (forall l, comment_on (main_unit x') l <-> comment_on (main_unit x) l)
  /\ one_more text (e_decl (cx_env x) i0) (e_decl (cx_env x') i0)
  /\ (forall i, i <> i0 -> e_decl (cx_env x') i = e_decl (cx_env x) i)
  /\ (forall i, under i -> one_more_above text (e_parents (cx_env x) i) (e_parents (cx_env x') i))
  /\ (forall i, ~ under i -> e_parents (cx_env x') i = e_parents (cx_env x) i).
(** The finding is about the declaration itself or a node below it. *)
Definition concerns (i0 : nat) (under : nat -> Prop) (r : report) : Prop :=
  (declaration (rp_node r) /\ n_id (rp_node r) = i0) \/ under (n_id (rp_node r)).

(** The findings of the rule, hidden or not. *)
Definition all_findings (c : Verif.ModelConfig.cfg) (k : nat) (x : tuctx) (rs : list report) : Prop :=
  exists s b decls, nth_error shipped_behaviours k = Some (s, b) /\ examined x s decls /\ finds c x s b decls rs.
