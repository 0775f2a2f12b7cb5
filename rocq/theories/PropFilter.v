(** * Properties C13-C15 and C37: rule selection, analyzer loop *)
From Verif Require Import Base BaseFacts ModelResults ModelConfig ModelFilter
  SpecFilter ProofResults ProofConfig ProofFilter.

Definition exf_env : ruleenv := fun a =>
  {| ri_name := []; ri_identifier := match a with 0 => $"A" | 1 => $"B" | _ => $"C" end;
     ri_category := []; ri_priority := 3%Z |}.

(** ** C13 *)
Theorem c13_running_rules_are_the_selected_ones : forall env rules reqs,
  exists running,
    filteredRules env (after_requests reqs) (registry rules) = Val running
    /\ sublist_where (fun a => selected reqs (ri_identifier (env a))) rules running.
Proof.
  intros env rules reqs. eexists. split; [apply filteredRules_eq|].
  apply filter_sublist_where. intros a. apply f_keeps_selected.
Qed.

Theorem c13_listed_names_are_the_running_rules : forall env rules f running,
  filteredRules env f (registry rules) = Val running ->
  filteredRuleNames env f (registry rules) = Val (map (fun a => ri_identifier (env a)) running).
Proof. intros env rules f running H. unfold filteredRuleNames. now rewrite H. Qed.

Example c13_case :
  filteredRules exf_env (after_requests [Enable $"B"; Enable $"C"; Disable $"C"; Enable $"A"])
    (registry [0; 2; 1; 0]) = Val [0; 1; 0]
  /\ selected [Enable $"B"; Enable $"C"; Disable $"C"; Enable $"A"] $"A".
Proof.
  split; [reflexivity|]. rewrite <- f_keeps_selected. reflexivity.
Qed.

(** ** C14 *)
Theorem c14_last_request_wins : forall reqs n,
  (In n (f_enabled (after_requests reqs)) <-> wanted reqs n)
  /\ (In n (f_disabled (after_requests reqs)) <-> unwanted reqs n).
Proof. exact after_requests_sets. Qed.

Theorem c14_never_both : forall reqs n,
  ~ (In n (f_enabled (after_requests reqs)) /\ In n (f_disabled (after_requests reqs))).
Proof.
  intros reqs n [H1 H2]. apply after_requests_sets in H1. apply after_requests_sets in H2.
  eapply wanted_unwanted_excl; eauto.
Qed.

(** Requests for other names do not matter. *)
Theorem c14_other_names_irrelevant : forall reqs n,
  wanted reqs n <-> wanted (filter (fun r => str_eqb (req_name r) n) reqs) n.
Proof.
  unfold wanted. intros reqs n. induction reqs as [|r reqs IH] using rev_ind.
  - reflexivity.
  - rewrite filter_app. cbn [filter]. rewrite is_last_snoc.
    destruct (str_eqb (req_name r) n) eqn:E.
    + apply str_eqb_eq in E. rewrite is_last_snoc. cbn [req_name] in *.
      split; (intros [H|[H _]]; [auto | congruence]).
    + apply str_eqb_neq in E. rewrite app_nil_r, <- IH. cbn [req_name]. split.
      * intros [<-|[_ H]]; auto. now destruct E.
      * intros H. auto.
Qed.

Example c14_case : wanted [Disable $"A"; Enable $"A"; Disable $"B"] $"A"
  /\ unwanted [Disable $"A"; Enable $"A"; Disable $"B"] $"B".
Proof.
  split.
  - exists [Disable $"A"], [Disable $"B"]. split; [reflexivity|]. intros r [<-|[]]; discriminate.
  - exists [Disable $"A"; Enable $"A"], []. split; [reflexivity|]. intros r [].
Qed.

(** ** C15 *)
(** Unless the rule was the only enabled one, disabling it only removes it. *)
Theorem c15_disable_only_removes : forall env rules reqs n before after_,
  (wanted reqs n -> exists m, m <> n /\ wanted reqs m) ->
  filteredRules env (after_requests reqs) (registry rules) = Val before ->
  filteredRules env (after_requests (reqs ++ [Disable n])) (registry rules) = Val after_ ->
  sublist_where (fun a => ri_identifier (env a) <> n) before after_.
Proof.
  intros env rules reqs n before after_ Honly. rewrite !filteredRules_eq.
  intros [= <-] [= <-].
  set (P := fun a => f_keeps (after_requests reqs) (ri_identifier (env a))).
  set (Q := fun a => f_keeps (after_requests (reqs ++ [Disable n])) (ri_identifier (env a))).
  assert (K : forall a, Q a = true <-> P a = true /\ ri_identifier (env a) <> n).
  { intros a. unfold P, Q. rewrite !f_keeps_selected, disable_selected. unfold selected. split.
    - intros (H1 & H2 & H3). repeat split; auto. intros [m Hm].
      destruct (str_eq_dec m n) as [->|Hmn]; [apply H3, Honly; auto | apply H3; eauto].
    - intros [[H1 H2] H3]. repeat split; auto. intros (m & _ & Hm). apply H2. eauto. }
  clearbody P Q. induction rules as [|a rules IH]; simpl; [constructor|].
  destruct (P a) eqn:EP, (Q a) eqn:EQ; auto.
  - apply sw_take; auto. now apply K.
  - apply sw_drop; auto. intros Hn. assert (Q a = true) by (apply K; auto). congruence.
  - exfalso. apply K in EQ as [E _]. congruence.
Qed.

(** If it was the only enabled one, afterwards every not disabled other rule runs. *)
Theorem c15_disable_last_enabled_runs_everything : forall env rules reqs n,
  wanted reqs n -> (forall m, wanted reqs m -> m = n) ->
  exists before after_,
    filteredRules env (after_requests reqs) (registry rules) = Val before
    /\ sublist_where (fun a => ri_identifier (env a) = n) rules before
    /\ filteredRules env (after_requests (reqs ++ [Disable n])) (registry rules) = Val after_
    /\ sublist_where (fun a => ri_identifier (env a) <> n /\ ~ unwanted reqs (ri_identifier (env a)))
         rules after_.
Proof.
  intros env rules reqs n Hw Honly. do 2 eexists. split; [apply filteredRules_eq|].
  split; [|split; [apply filteredRules_eq|]].
  - apply filter_sublist_where. intros a. rewrite f_keeps_selected. unfold selected. split.
    + intros [_ H]. apply Honly, H. eauto.
    + intros ->. split; [|auto]. intros Hu. eapply wanted_unwanted_excl; eauto.
  - apply filter_sublist_where. intros a. rewrite f_keeps_selected, disable_selected. split.
    + tauto.
    + intros [H1 H2]. repeat split; auto. intros (m & Hm & Hwm). apply Honly in Hwm. congruence.
Qed.

(** Finding: disabling a rule can make another one run. *)
Theorem c15_disable_never_adds_refuted : exists env rules reqs n before after_ a,
  filteredRules env (after_requests reqs) (registry rules) = Val before
  /\ filteredRules env (after_requests (reqs ++ [Disable n])) (registry rules) = Val after_
  /\ ri_identifier (env a) <> n /\ In a after_ /\ ~ In a before.
Proof.
  exists exf_env, [0; 1], [Enable $"A"], $"A", [0], [1], 1.
  repeat split; try reflexivity; try discriminate; simpl; auto.
  intros [H|[]]; discriminate.
Qed.
Example c15_case : filteredRules exf_env (after_requests [Enable $"A"; Enable $"B"]) (registry [0; 1; 2]) = Val [0; 1]
  /\ filteredRules exf_env (after_requests ([Enable $"A"; Enable $"B"] ++ [Disable $"A"])) (registry [0; 1; 2]) = Val [1]
  /\ wanted [Enable $"A"; Enable $"B"] $"B".
Proof. split; [reflexivity|]. split; [reflexivity|]. exists [Enable $"A"], []. split; [reflexivity|]. simpl. tauto. Qed.

(** ** C37 *)
(** When no rule raises, exactly one set per unit is added, in order, holding what the
    rules reported for that unit in rule order; nothing else changes. *)
Theorem c37_one_set_per_unit : forall (CTX ST : Type)
    (takeoff : nat -> CTX -> ST -> outcome (list violation * ST)) rules contexts c st c' st',
  analyze takeoff rules contexts c st = (c', Val st') ->
  exists all,
    units_run takeoff rules contexts st all st'
    /\ c_collection c' = c_collection c ++ map (fun per_rule => recordable (concat per_rule)) all
    /\ length all = length contexts
    /\ c_errors c' = c_errors c /\ c_warnings c' = c_warnings c /\ c_bugs c' = c_bugs c.
Proof.
  intros CTX ST takeoff rules contexts c st c' st' H.
  destruct (analyze_val _ _ _ _ _ _ _ H) as [all Hall].
  exists all. rewrite (analyze_run _ _ _ _ _ _ c Hall) in H. inversion H; subst; simpl.
  repeat split; auto. eapply units_run_length; eauto.
Qed.

(** Conversely, if every rule completes on every unit the analysis completes. *)
Theorem c37_analysis_completes : forall (CTX ST : Type)
    (takeoff : nat -> CTX -> ST -> outcome (list violation * ST)) rules contexts c st all st',
  units_run takeoff rules contexts st all st' ->
  snd (analyze takeoff rules contexts c st) = Val st'.
Proof. intros. now rewrite (analyze_run _ _ _ _ _ _ c H). Qed.

(** If a rule raises, the units before the failing one have their sets, it and the later
    ones have none. *)
Theorem c37_exception_keeps_earlier_units : forall (CTX ST : Type)
    (takeoff : nat -> CTX -> ST -> outcome (list violation * ST)) rules contexts c st c' w,
  analyze takeoff rules contexts c st = (c', Exc w) ->
  exists pre ctx post all st1,
    contexts = pre ++ ctx :: post
    /\ units_run takeoff rules pre st all st1
    /\ c' = {| c_collection := c_collection c ++ map (fun per_rule => recordable (concat per_rule)) all;
               c_errors := c_errors c; c_warnings := c_warnings c; c_bugs := c_bugs c |}
    /\ (forall per_rule st2, ~ unit_run takeoff rules ctx st1 per_rule st2).
Proof. intros. eapply analyze_exc; eauto. Qed.

Example c37_case :
  let v := {| v_rule := Some 0; v_path := $"f"; v_startLine := 1; v_startColumn := 1;
              v_endLine := 1; v_endColumn := 1; v_message := [] |} in
  let takeoff := fun (a : nat) (ctx : nat) (st : nat) =>
                   if Nat.eqb ctx 1 then Val ([], st) else Val (repeat v (a + st), S st) in
  analyze takeoff [1; 2] [0; 1; 5] c_empty 0
  = ({| c_collection := [[v; v; v; v]; []; [v; v; v; v; v; v; v; v]];
        c_errors := []; c_warnings := []; c_bugs := [] |}, Val 4).
Proof. reflexivity. Qed.

Print Assumptions c13_running_rules_are_the_selected_ones.
Print Assumptions c14_last_request_wins.
Print Assumptions c15_disable_only_removes.
Print Assumptions c15_disable_last_enabled_runs_everything.
Print Assumptions c37_one_set_per_unit.
