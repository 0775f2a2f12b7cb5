(** * Model of the script in an HTML report, oclint-reporters/reporters/HTMLReporter.cpp:146-176

    The script belongs to the report: [sortTable(n)] is what a click on the heading of column [n]
    runs (:30-35).  It is JavaScript inside a string literal. *)
From Verif Require Import Base.

(** JavaScript strings: sequences of UTF-16 code units. *)
Definition units := list nat.
(** [a < b] on strings (ECMA-262, IsLessThan): by the first differing code unit, a proper prefix
    being less. *)
Fixpoint less (a b : units) : bool :=
  match a, b with
  | [], [] => false
  | [], _ :: _ => true
  | _ :: _, [] => false
  | x :: a', y :: b' => if x <? y then true else if y <? x then false else less a' b'
  end.

(** A row of [table.rows]: the innerHTML of its TD elements (the heading row has none). *)
Definition row := list units.

Inductive scanned := Switch (i : nat) | NoSwitch | Throws.

Section SortTable.
  Variable toLowerCase : units -> units.
  Variable n : nat.

  (** :157-158; a missing element is [undefined], reading its innerHTML throws. *)
  Definition cell (r : row) : option units := option_map toLowerCase (nth_error r n).
  (** :159-160 *)
  Definition shouldSwitch (asc : bool) (x y : units) : bool :=
    if asc then less y x else less x y.
  (** :155-164: the loop from [i] on, [k] being the iterations left, rows.length - 1 - i. *)
  Fixpoint scan (k : nat) (asc : bool) (rows : list row) (i : nat) : scanned :=
    match k with
    | O => NoSwitch
    | S k' =>
        match nth_error rows i, nth_error rows (i + 1) with
        | Some r, Some r' =>
            match cell r, cell r' with
            | Some x, Some y => if shouldSwitch asc x y then Switch i else scan k' asc rows (i + 1)
            | _, _ => Throws
            end
        | _, _ => Throws
        end
    end.
  (** :166: rows[i + 1] is moved before rows[i]. *)
  Definition insertBefore (rows : list row) (i : nat) : list row :=
    match nth_error rows i, nth_error rows (i + 1) with
    | Some r, Some r' => firstn i rows ++ r' :: r :: skipn (i + 2) rows
    | _, _ => rows
    end.
  (** :152-175.  The loop is not structurally terminating: [None] means still running after [fuel]
      iterations.  The outcome is the table, or an exception. *)
  Fixpoint sort_loop (fuel : nat) (rows : list row) (asc : bool) (switchcount : nat)
    : option (outcome (list row)) :=
    match fuel with
    | O => None
    | S fuel' =>
        match scan (length rows - 2) asc rows 1 with
        | Throws => Some (Exc $"TypeError")
        | Switch i => sort_loop fuel' (insertBefore rows i) asc (switchcount + 1)
        | NoSwitch =>
            if (switchcount =? 0) && asc then sort_loop fuel' rows false switchcount
            else Some (Val rows)
        end
    end.
  (** :147-176 *)
  Definition sortTable (fuel : nat) (rows : list row) : option (outcome (list row)) :=
    sort_loop fuel rows true 0.
End SortTable.

(** A text of the page in code units (one per byte for ASCII). *)
Definition units_of (s : str) : units := map code s.
