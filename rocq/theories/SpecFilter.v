(** * Specification vocabulary for rule selection and analysis *)
From Verif Require Import Base ModelResults ModelConfig ModelFilter.

(** A request made by the user for a rule name. *)
Inductive request := Enable (name : str) | Disable (name : str).
Definition req_name (r : request) : str := match r with Enable n => n | Disable n => n end.

Definition request_step (f : rfilter) (r : request) : rfilter :=
  match r with Enable n => enableRule f n | Disable n => disableRule f n end.
Definition after_requests (reqs : list request) : rfilter := fold_left request_step reqs f_empty.

(** [r] is the last request that mentions its name. *)
Definition is_last (reqs : list request) (r : request) : Prop :=
  exists a b, reqs = a ++ r :: b /\ forall r', In r' b -> req_name r' <> req_name r.

Definition wanted (reqs : list request) (n : str) : Prop := is_last reqs (Enable n).
Definition unwanted (reqs : list request) (n : str) : Prop := is_last reqs (Disable n).

(** A rule with this identifier runs. *)
Definition selected (reqs : list request) (n : str) : Prop :=
  ~ unwanted reqs n /\ ((exists m, wanted reqs m) -> wanted reqs n).

(** The registry after registering the rules [rules]. *)
Definition registry (rules : list nat) : ruleset := fold_left rs_register (map Some rules) None.

(** [sel] is the sublist of [l] of the elements satisfying [P], in order, with
    multiplicity. *)
Inductive sublist_where {A} (P : A -> Prop) : list A -> list A -> Prop :=
| sw_nil : sublist_where P [] []
| sw_take : forall x l s, P x -> sublist_where P l s -> sublist_where P (x :: l) (x :: s)
| sw_drop : forall x l s, ~ P x -> sublist_where P l s -> sublist_where P (x :: l) s.

(** The execution of a list of rules on one unit from rule state [st]: rule by rule, each
    with the reports it makes and the state it leaves. *)
Inductive unit_run {CTX ST : Type} (takeoff : nat -> CTX -> ST -> outcome (list violation * ST))
  : list nat -> CTX -> ST -> list (list violation) -> ST -> Prop :=
| ur_nil : forall ctx st, unit_run takeoff [] ctx st [] st
| ur_cons : forall a rules ctx st reports st1 rest st2,
    takeoff a ctx st = Val (reports, st1) ->
    unit_run takeoff rules ctx st1 rest st2 ->
    unit_run takeoff (a :: rules) ctx st (reports :: rest) st2.

(** Units one after the other: for each unit the reports per rule. *)
Inductive units_run {CTX ST : Type} (takeoff : nat -> CTX -> ST -> outcome (list violation * ST))
  (rules : list nat) : list CTX -> ST -> list (list (list violation)) -> ST -> Prop :=
| us_nil : forall st, units_run takeoff rules [] st [] st
| us_cons : forall ctx ctxs st per_rule st1 rest st2,
    unit_run takeoff rules ctx st per_rule st1 ->
    units_run takeoff rules ctxs st1 rest st2 ->
    units_run takeoff rules (ctx :: ctxs) st (per_rule :: rest) st2.

(** What is recorded for a unit: the reports that name a file. *)
Definition recordable (l : list violation) : list violation :=
  filter (fun v => negb (is_nil (v_path v))) l.
