(** * Specification vocabulary: two runs that differ in one suppressed place *)
From Verif Require Import Base ModelResults ModelConfig ModelSource ModelProgram ModelRuleTable
  SpecFilter SpecSource SpecProgram SpecSuppression.

(** Line by line the same text, but for the line that received the comment. *)
Definition lines_but (line : Z) (ls ls' : list str) : Prop :=
  Forall2 (fun l l' => fst l = fst l' /\ (fst l <> line -> snd l = snd l')) (numbered 1 ls) (numbered 1 ls').
(** [x'] is the file [x] after a suppressing comment was added to the end of [line]. *)
Definition comment_added (x x' : tuctx) (line : Z) : Prop :=
  commented x x' line
  /\ u_path (main_unit x) <> [] /\ u_path (main_unit x') = u_path (main_unit x)
  /\ u_top (main_unit x') = u_top (main_unit x)
  /\ exists ls ls', lines_of (u_content (main_unit x)) ls /\ lines_of (u_content (main_unit x')) ls' /\ lines_but line ls ls'.

(** One bucket of the collection changed from [vs] to [vs'], the others did not. *)
Definition bucket_changed (at_ : nat) (l l' : list (list violation)) (vs vs' : list violation) : Prop :=
  exists before after, length before = at_ /\ l = before ++ vs :: after /\ l' = before ++ vs' :: after.
(** [l'] is [l] with some violations taken out. *)
Inductive taken_out {A} : list A -> list A -> Prop :=
| to_nil : taken_out [] []
| to_keep : forall x l l', taken_out l l' -> taken_out (x :: l) (x :: l')
| to_drop : forall x l l', taken_out l l' -> taken_out (x :: l) l'.
