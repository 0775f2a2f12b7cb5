(** * Specification vocabulary for result views *)
From Verif Require Import Base BaseFacts ModelResults.

(** [x] is met before [y] when reading [l] from the left: at the first [x], no [y] has
    been seen yet. *)
Definition first_seen_before {A} (l : list A) (x y : A) : Prop :=
  exists a b, l = a ++ x :: b /\ ~ In x a /\ ~ In y a.

(** [r] keeps one copy of every element of [l], in first-seen order. *)
Definition one_copy_each {A} (l r : list A) : Prop :=
  NoDup r
  /\ (forall x, In x r <-> In x l)
  /\ (forall a x b y c, r = a ++ x :: b ++ y :: c -> first_seen_before l x y).

(** Everything recorded, unit by unit: the concatenation of the sets in order. *)
Definition recorded_sets (ops : list rop) : list violationset :=
  flat_map (fun o => match o with RecSet s => [s] | _ => [] end) ops.
Definition recorded_errors (ops : list rop) : list violation :=
  flat_map (fun o => match o with RecError v => [v] | _ => [] end) ops.
Definition recorded_warnings (ops : list rop) : list violation :=
  flat_map (fun o => match o with RecWarning v => [v] | _ => [] end) ops.
Definition recorded_bugs (ops : list rop) : list violation :=
  flat_map (fun o => match o with RecBug v => [v] | _ => [] end) ops.

(** What was recorded, per kind of query. *)
Definition recorded (q : query) (ops : list rop) : list violation :=
  match q with
  | QViolations => concat (recorded_sets ops)
  | QErrors => recorded_errors ops
  | QWarnings => recorded_warnings ops
  | QBugs => recorded_bugs ops
  end.

(** The answer to query [q] put at the end of a history that starts with nothing
    recorded and a fresh result object. *)
Definition answer_after (h : violation -> Z) (allowDup : bool) (ops : list rop) (q : query)
  : list violation :=
  let '(c, r, _) := run_hist h ops c_empty (getResults allowDup) in fst (ask h c r q).

(** Priority of a violation, when it has a rule. *)
Definition has_priority (env : ruleenv) (p : Z) (v : violation) : Prop :=
  exists a, v_rule v = Some a /\ ri_priority (env a) = p.
Definition has_priorityb (env : ruleenv) (p : Z) (v : violation) : bool :=
  match v_rule v with Some a => Z.eqb (ri_priority (env a)) p | None => false end.

(** Distinct first paths of the non-empty units. *)
Definition first_path (s : violationset) : list str :=
  match s with [] => [] | v :: _ => [v_path v] end.

(** [n] is the number of distinct elements of [l]. *)
Definition distinct_count {A} (l : list A) (n : nat) : Prop :=
  exists d, NoDup d /\ (forall x, In x d <-> In x l) /\ length d = n.
