(** * Specification for C132: what a reader expects of a sortable table *)
From Verif Require Import Base ModelSortTable.
From Coq Require Export Permutation Sorted.

(** Dictionary order on texts: equal, or less at the first difference. *)
Inductive precedes : units -> units -> Prop :=
| pr_prefix : forall y b, precedes [] (y :: b)
| pr_less : forall x y a b, x < y -> precedes (x :: a) (y :: b)
| pr_same : forall x a b, precedes a b -> precedes (x :: a) (x :: b).
Definition not_after (a b : units) : Prop := a = b \/ precedes a b.

Section Table.
  (** The text a row is sorted by. *)
  Variable key : row -> units.
  Definition ascending (body : list row) : Prop := StronglySorted (fun r r' => not_after (key r) (key r')) body.
  Definition descending (body : list row) : Prop := StronglySorted (fun r r' => not_after (key r') (key r)) body.
  (** Rows with the same text stay in their order. *)
  Definition stable (body body' : list row) : Prop :=
    forall t same, (forall r, same r = true <-> key r = t) -> filter same body' = filter same body.
End Table.

(** After a click the script ends, however long it takes, with this table. *)
Definition click (toLowerCase : units -> units) (n : nat) (rows rows' : list row) : Prop :=
  exists steps, forall fuel, steps <= fuel -> sortTable toLowerCase n fuel rows = Some (Val rows').
Definition text_in (toLowerCase : units -> units) (n : nat) (r : row) : units := toLowerCase (nth n r []).
