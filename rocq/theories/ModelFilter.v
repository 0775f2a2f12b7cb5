(** * Model of oclint-driver: rule filter and analyzer loop *)
From Verif Require Import Base ModelResults ModelConfig.

(** ** std::set<std::string> as a duplicate-free list *)
Definition sset := list str.
Definition sset_mem (s : sset) (x : str) : bool := existsb (fun y => str_eqb y x) s.
Definition sset_insert (s : sset) (x : str) : sset := if sset_mem s x then s else x :: s.
Definition sset_erase (s : sset) (x : str) : sset := filter (fun y => negb (str_eqb y x)) s.

(** oclint-driver/include/oclint/RulesetFilter.h:19-25 *)
Record rfilter := { f_enabled : sset; f_disabled : sset }.
Definition f_empty : rfilter := {| f_enabled := []; f_disabled := [] |}.

(** oclint-driver/lib/RulesetFilter.cpp:12-20 *)
Definition enableRule (f : rfilter) (name : str) : rfilter :=
  {| f_enabled := sset_insert (f_enabled f) name;
     f_disabled := if sset_mem (f_disabled f) name then sset_erase (f_disabled f) name
                   else f_disabled f |}.
(** RulesetFilter.cpp:22-30 *)
Definition disableRule (f : rfilter) (name : str) : rfilter :=
  {| f_disabled := sset_insert (f_disabled f) name;
     f_enabled := if sset_mem (f_enabled f) name then sset_erase (f_enabled f) name
                  else f_enabled f |}.
(** RulesetFilter.h:30-41 *)
Definition enableRules (f : rfilter) (names : list str) : rfilter := fold_left enableRule names f.
Definition disableRules (f : rfilter) (names : list str) : rfilter := fold_left disableRule names f.

(** RulesetFilter.cpp:41-42, the condition *)
Definition f_keeps (f : rfilter) (name : str) : bool :=
  (is_nil (f_enabled f) || sset_mem (f_enabled f) name) && negb (sset_mem (f_disabled f) name).

(** RulesetFilter.cpp:32-49.  [fuel] counts the remaining indices numRules - ruleIdx. *)
Fixpoint filtered_loop (env : ruleenv) (f : rfilter) (rs : ruleset) (fuel : nat) (idx : Z)
    (acc : list nat) : outcome (list nat) :=
  match fuel with
  | O => Val acc
  | S n =>
      obind (getRuleAtIndex rs idx) (fun r =>
        match r with
        | None => UB                                  (* rule->identifier() on null *)
        | Some a =>
            filtered_loop env f rs n (idx + 1)%Z
              (if f_keeps f (ri_identifier (env a)) then acc ++ [a] else acc)
        end)
  end.
Definition filteredRules (env : ruleenv) (f : rfilter) (rs : ruleset) : outcome (list nat) :=
  filtered_loop env f rs (Z.to_nat (numberOfRules rs)) 0%Z [].

(** RulesetFilter.cpp:51-57 *)
Definition filteredRuleNames (env : ruleenv) (f : rfilter) (rs : ruleset) : outcome (list str) :=
  obind (filteredRules env f rs) (fun l => Val (map (fun a => ri_identifier (env a)) l)).

(** ** oclint-driver/lib/RulesetBasedAnalyzer.cpp:21-37

    What a rule does when it takes off on a context is a parameter: given the state of
    all rule objects it yields the reports it makes (in order) and the new state, or
    raises.  Reports go through the carrier (RuleCarrier.cpp:36-45). *)
Section Analyzer.
  Context {CTX ST : Type}.
  Variable takeoff : nat -> CTX -> ST -> outcome (list violation * ST).

  Definition carrier_report (s : violationset) (v : violation) : violationset :=
    carrier_addViolation s (v_path v) (v_startLine v) (v_startColumn v) (v_endLine v)
      (v_endColumn v) (v_rule v) (v_message v).

  Fixpoint rules_loop (rules : list nat) (ctx : CTX) (s : violationset) (st : ST)
    : outcome (violationset * ST) :=
    match rules with
    | [] => Val (s, st)
    | a :: rules' =>
        obind (takeoff a ctx st) (fun r =>
          rules_loop rules' ctx (fold_left carrier_report (fst r) s) (snd r))
    end.

  (** The collector is a global object: what was added before an exception stays. *)
  Fixpoint analyze (rules : list nat) (contexts : list CTX) (c : collector) (st : ST)
    : collector * outcome ST :=
    match contexts with
    | [] => (c, Val st)
    | ctx :: contexts' =>
        match rules_loop rules ctx [] st with
        | Val (s, st') => analyze rules contexts' (c_add c s) st'
        | Exc w => (c, Exc w)
        | UB => (c, UB)
        end
    end.
End Analyzer.
