(** * Specification vocabulary for options *)
From Verif Require Import Base ModelResults ModelConfig ModelFilter ModelOptions SpecFilter.

(** The configuration files consulted, in increasing precedence: installation, home (if
    HOME is non-empty), project. *)
Definition config_files (read : str -> option str) (yaml : str -> configfile) (e : penv)
  : list configfile :=
  map (ConfigFile_read read yaml)
    (match en_home e with
     | None | Some [] => [en_bin e ++ $"/../etc/oclint"; workingPath e ++ $"/.oclint"]
     | Some h => [en_bin e ++ $"/../etc/oclint"; h ++ $"/.oclint"; workingPath e ++ $"/.oclint"]
     end).

(** [v] is the effective value: the command line's, else the one of the last file that has
    one, else the default. *)
Definition effective {T} (cmd : option T) (files : list (option T)) (default v : T) : Prop :=
  match cmd with
  | Some c => v = c
  | None =>
      (exists a x b, files = a ++ Some x :: b /\ Forall (fun o => o = None) b /\ v = x)
      \/ (Forall (fun o => o = None) files /\ v = default)
  end.

(** What a file says about an option: nothing for the empty text, INT_MIN, absent. *)
Definition says_text (v : str) : option str := match v with [] => None | _ => Some v end.
Definition says_int (v : Z) : option Z := if Z.eq_dec v (-2147483648) then None else Some v.
Definition says_bool (v : tristate) : option bool :=
  match v with TTrue => Some true | TFalse => Some false | TUndefined => None end.

(** [v] is the last value given to key [k] in a list of settings. *)
Definition last_setting (l : list (str * str)) (k v : str) : Prop :=
  exists a b, l = a ++ (k, v) :: b /\ forall v', ~ In (k, v') b.
Definition sets (l : list (str * str)) (k : str) : Prop := exists v, In (k, v) l.

(** The setting an -rc argument denotes. *)
Definition rc_setting (arg : str) (kv : str * str) : Prop :=
  (~ In "="%char arg /\ kv = (arg, arg))
  \/ (exists k v, arg = k ++ "="%char :: v /\ ~ In "="%char v /\ kv = (k, v)).
