(** * Base: byte strings, C-locale character classes, outcomes

    Shared vocabulary of the model.  No property is stated here. *)
From Coq Require Export String Ascii.
From Coq Require Export Arith ZArith Lia Bool List.
Export ListNotations.
Open Scope list_scope.
Open Scope Z_scope.
Open Scope nat_scope.

(** [std::string] is modelled as a list of bytes. *)
Definition str := list ascii.

(** String literals of the source are written [$ "text"]. *)
Definition lit (s : string) : str := list_ascii_of_string s.
Notation "$ s" := (lit s%string) (at level 1, s at level 0, format "$ s").

Definition ascii_eqb := Ascii.eqb.

(** [std::string::operator==] *)
Fixpoint str_eqb (a b : str) : bool :=
  match a, b with
  | [], [] => true
  | x :: a', y :: b' => ascii_eqb x y && str_eqb a' b'
  | _, _ => false
  end.

Definition is_nil {A} (l : list A) : bool := match l with [] => true | _ => false end.

(** Bytes as numbers. *)
Definition code (c : ascii) : nat := nat_of_ascii c.
Definition NL : ascii := "010"%char.

(** <cctype> in the "C" locale (bytes above 127 are in no class). *)
Definition isupper (c : ascii) : bool := (65 <=? code c) && (code c <=? 90).
Definition islower (c : ascii) : bool := (97 <=? code c) && (code c <=? 122).
Definition isalpha (c : ascii) : bool := isupper c || islower c.
Definition isdigit (c : ascii) : bool := (48 <=? code c) && (code c <=? 57).
Definition isspace (c : ascii) : bool := (code c =? 32) || ((9 <=? code c) && (code c <=? 13)).
Definition toupper (c : ascii) : ascii :=
  if islower c then ascii_of_nat (code c - 32) else c.

(** The outcome of running a piece of C++: a value, a thrown exception (with its
    what() text), or undefined behaviour. *)
Inductive outcome (A : Type) : Type :=
| Val (a : A)
| Exc (what : str)
| UB.
Arguments Val {A} a.
Arguments Exc {A} what.
Arguments UB {A}.

Definition obind {A B} (o : outcome A) (f : A -> outcome B) : outcome B :=
  match o with Val a => f a | Exc w => Exc w | UB => UB end.

(** Decimal printing of integers, as [ostream << int] does. *)
Definition digit (n : Z) : ascii := ascii_of_nat (48 + Z.to_nat n).
Fixpoint pos_digits (fuel : nat) (n : Z) (acc : str) : str :=
  match fuel with
  | O => acc
  | S f => if (n <? 10)%Z then digit n :: acc
           else pos_digits f (n / 10)%Z (digit (n mod 10)%Z :: acc)
  end.
Definition show_nonneg (n : Z) : str := pos_digits (S (Z.to_nat (Z.log2 (n + 1)))) n [].
Definition show_Z (n : Z) : str :=
  if (n <? 0)%Z then "-"%char :: show_nonneg (- n) else show_nonneg n.

(** Prefix test and search on byte strings. *)
Fixpoint prefixb (p s : str) : bool :=
  match p, s with
  | [], _ => true
  | x :: p', y :: s' => ascii_eqb x y && prefixb p' s'
  | _ :: _, [] => false
  end.

(** [s.find(p)]: position of the first occurrence. *)
Fixpoint find_sub (p s : str) : option nat :=
  if prefixb p s then Some 0
  else match s with
       | [] => None
       | _ :: s' => match find_sub p s' with Some n => Some (S n) | None => None end
       end.

(** [s.find(c)] and [s.rfind(c)] / [find_last_of] for one character. *)
Fixpoint find_char (c : ascii) (s : str) : option nat :=
  match s with
  | [] => None
  | x :: s' => if ascii_eqb x c then Some 0
               else match find_char c s' with Some n => Some (S n) | None => None end
  end.
Fixpoint rfind_char (c : ascii) (s : str) : option nat :=
  match s with
  | [] => None
  | x :: s' => match rfind_char c s' with
               | Some n => Some (S n)
               | None => if ascii_eqb x c then Some 0 else None
               end
  end.

(** [s.substr(pos, len)] for [pos <= s.size()]. *)
Definition substr (s : str) (pos len : nat) : str := firstn len (skipn pos s).

(** 32-bit [int]. *)
Definition INT_MAX : Z := 2147483647.
Definition INT_MIN : Z := -2147483648.
Definition in_int (z : Z) : Prop := (INT_MIN <= z <= INT_MAX)%Z.
Definition in_intb (z : Z) : bool := ((INT_MIN <=? z) && (z <=? INT_MAX))%Z.
