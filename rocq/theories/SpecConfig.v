(** * Specification vocabulary for rule configuration, identity and registry *)
From Verif Require Import Base ModelConfig.

(** Operations of a client of the rule configuration. *)
Inductive cop :=
| Add (key value : str)
| Clear
| LookupString (key default : str)
| LookupInt (key : str) (default : Z).

(** [v] is the last value added for [k] since the last [Clear]. *)
Definition last_value (ops : list cop) (k v : str) : Prop :=
  exists a b, ops = a ++ Add k v :: b /\
              (forall v', ~ In (Add k v') b) /\ ~ In Clear b.
(** Nothing added for [k] since the last [Clear]. *)
Definition no_value (ops : list cop) (k : str) : Prop :=
  exists a b, ops = a ++ b /\ (a = [] \/ exists a', a = a' ++ [Clear]) /\
              (forall v, ~ In (Add k v) b) /\ ~ In Clear b.

(** Executes a history; stops at undefined behaviour. *)
Fixpoint run_cfg (ops : list cop) (c : cfg) : outcome cfg :=
  match ops with
  | [] => Val c
  | Add k v :: ops' => run_cfg ops' (addConfiguration c k v)
  | Clear :: ops' => run_cfg ops' (removeAll c)
  | LookupString k d :: ops' => obind (stringForKey c k d) (fun r => run_cfg ops' (snd r))
  | LookupInt k d :: ops' => obind (intForKey c k d) (fun r => run_cfg ops' (snd r))
  end.

(** Place-value reading of a digit string. *)
Fixpoint value_of_digits (ds : str) : Z :=
  match ds with
  | [] => 0%Z
  | d :: ds' => ((Z.of_nat (code d) - 48) * 10 ^ Z.of_nat (length ds') + value_of_digits ds')%Z
  end.

(** [s] is blanks, an optional sign, at least one digit, then something that does not
    continue the number; [z] is the number. *)
Definition reads_as (s : str) (z : Z) : Prop :=
  exists ws sign ds rest,
    s = ws ++ sign ++ ds ++ rest
    /\ Forall (fun c => isspace c = true) ws
    /\ ds <> [] /\ Forall (fun c => isdigit c = true) ds
    /\ (forall c r, rest = c :: r -> isdigit c = false)
    /\ (   (sign = [] /\ z = value_of_digits ds)
        \/ (sign = $"+" /\ z = value_of_digits ds)
        \/ (sign = $"-" /\ z = (- value_of_digits ds)%Z)).

(** The letters of a name, each capitalised when it starts a word. *)
Definition word_start (name : str) (i : nat) : Prop :=
  i = 0 \/ exists j c, i = S j /\ nth_error name j = Some c /\ isalpha c = false.
Inductive spells : str -> nat -> str -> str -> Prop :=
(* spells name i rest out: from position i on, where [rest] remains, the output is [out] *)
| sp_end : forall name i, spells name i [] []
| sp_skip : forall name i c rest out,
    isalpha c = false -> spells name (S i) rest out -> spells name i (c :: rest) out
| sp_cap : forall name i c rest out,
    isalpha c = true -> word_start name i -> spells name (S i) rest out ->
    spells name i (c :: rest) (toupper c :: out)
| sp_keep : forall name i c rest out,
    isalpha c = true -> ~ word_start name i -> spells name (S i) rest out ->
    spells name i (c :: rest) (c :: out).
