(** * Specification vocabulary for settings of the shipped rules *)
From Verif Require Import Base ModelConfig ModelOptions ModelRuleTable SpecOptions.

(** The text in force for a key: the configured one, or the default. *)
Definition in_force (c : cfg) (key default text : str) : Prop := stringForKey c key default = Val (text, c).
(** Two configurations agree on all settings of the rule. *)
Definition same_settings (s : shipped) (c1 c2 : cfg) : Prop :=
  forall key default text, In (key, default) (sh_reads s) -> in_force c1 key default text -> in_force c2 key default text.

(** What the user says about a key: the last -rc argument for it, else the last entry of the
    last configuration file that has one, else the default. *)
Inductive user_says (files : list configfile) (kvs : list (str * str)) (key default : str) : str -> Prop :=
| us_command_line : forall text, last_setting kvs key text -> user_says files kvs key default text
| us_file : forall earlier f later text, ~ sets kvs key -> files = earlier ++ f :: later ->
    (forall f', In f' later -> ~ sets (cf_ruleConfigurations f') key) ->
    last_setting (cf_ruleConfigurations f) key text -> user_says files kvs key default text
| us_default : ~ sets kvs key -> (forall f, In f files -> ~ sets (cf_ruleConfigurations f) key) ->
    user_says files kvs key default default.
(** Options without an -rc argument longer than an int can count. *)
Definition given (read : str -> option str) (yaml : str -> configfile) (e : penv) (cl : cmdline) (key default text : str) : Prop :=
  Forall (fun a => (Z.of_nat (length a) <= INT_MAX)%Z) (cl_rc cl)
  /\ exists kvs, Forall2 rc_setting (cl_rc cl) kvs /\ user_says (config_files read yaml e) kvs key default text.
