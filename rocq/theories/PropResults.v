(** * Properties C01-C07: result views *)
From Verif Require Import Base BaseFacts ModelResults SpecResults ProofResults.

(** Concrete data for the non-vacuity examples. *)
Definition ex_v1 : violation :=
  {| v_rule := Some 0; v_path := $"a.m"; v_startLine := 3; v_startColumn := 1;
     v_endLine := 4; v_endColumn := 2; v_message := $"x" |}.
Definition ex_v2 : violation :=
  {| v_rule := Some 1; v_path := $"b.h"; v_startLine := 7; v_startColumn := 5;
     v_endLine := 7; v_endColumn := 9; v_message := $"y" |}.
Definition ex_env : ruleenv := fun a =>
  {| ri_name := $"r"; ri_identifier := $"R"; ri_category := $"c";
     ri_priority := match a with 0 => 10 | _ => 2 end |}.

(** ** C01.  Default mode: asking for the violations (or errors, warnings, bugs) after any
    history in which this question was not yet answered with a non-empty list yields one
    copy of everything recorded, in first-seen order, for every hash function. *)
Theorem c01_dedup_one_copy_each : forall (h : violation -> Z) ops q,
  (forall l, In (q, l) (snd (run_hist h ops c_empty (getResults false))) -> l = []) ->
  one_copy_each (recorded q ops) (answer_after h false ops q).
Proof. exact c01. Qed.

(** ... and the order and content are determined by that: any two lists with this
    property are equal, so two hash functions give the same report. *)
Theorem c01_dedup_hash_independent : forall (h1 h2 : violation -> Z) l,
  removeViolationDuplications h1 l = removeViolationDuplications h2 l.
Proof.
  intros. eapply one_copy_each_unique; apply dedup_one_copy_each.
Qed.

(** The equality used is agreement of all seven fields. *)
Theorem c01_same_violation_iff_all_fields : forall a b,
  violation_eqb a b = true <->
  v_rule a = v_rule b /\ v_path a = v_path b /\ v_startLine a = v_startLine b
  /\ v_startColumn a = v_startColumn b /\ v_endLine a = v_endLine b
  /\ v_endColumn a = v_endColumn b /\ v_message a = v_message b.
Proof.
  intros a b. rewrite violation_eqb_eq. destruct a, b; simpl. split.
  - intros H; inversion H; tauto.
  - intros (? & ? & ? & ? & ? & ? & ?); congruence.
Qed.

Example c01_case :
  answer_after (fun _ => 0%Z) false
    [Ask QViolations; RecSet [ex_v2; ex_v1; ex_v2]; Ask QErrors; RecSet []; RecSet [ex_v1]] QViolations
  = [ex_v2; ex_v1]
  /\ (forall l, In (QViolations, l)
        (snd (run_hist (fun _ => 0%Z)
           [Ask QViolations; RecSet [ex_v2; ex_v1; ex_v2]; Ask QErrors; RecSet []; RecSet [ex_v1]]
           c_empty (getResults false))) -> l = []).
Proof.
  split; [vm_compute; reflexivity|]. intros l H.
  vm_compute in H. destruct H as [H|[H|[]]]; inversion H; reflexivity.
Qed.

(** ** C02.  With duplicates allowed the answer is everything recorded, unit after unit. *)
Theorem c02_raw_reports_everything : forall (h : violation -> Z) ops q,
  answer_after h true ops q = recorded q ops.
Proof. exact c02. Qed.

Example c02_case :
  answer_after (fun _ => 0%Z) true
    [RecSet [ex_v2; ex_v1]; Ask QViolations; RecError ex_v1; RecSet [ex_v2]] QViolations
  = [ex_v2; ex_v1; ex_v2].
Proof. vm_compute. reflexivity. Qed.

(** ** C03. *)
Theorem c03_dedup_subsequence_of_raw : forall (h : violation -> Z) ops q,
  (forall l, In (q, l) (snd (run_hist h ops c_empty (getResults false))) -> l = []) ->
  subseq (answer_after h false ops q) (answer_after h true ops q).
Proof. exact c03_subseq. Qed.

(** Every count: the total and the number of those satisfying any predicate. *)
Theorem c03_dedup_counts_at_most_raw : forall (h : violation -> Z) ops q (f : violation -> bool),
  (forall l, In (q, l) (snd (run_hist h ops c_empty (getResults false))) -> l = []) ->
  length (filter f (answer_after h false ops q)) <= length (filter f (answer_after h true ops q)).
Proof. intros. apply subseq_filter_length. now apply c03_subseq. Qed.

(** The per-priority numbers as the program computes them. *)
Theorem c03_priority_counts_at_most_raw : forall (h : violation -> Z) ops env p m n,
  (forall l, In (QViolations, l) (snd (run_hist h ops c_empty (getResults false))) -> l = []) ->
  numberOfViolationsWithPriority env (answer_after h false ops QViolations) p = Val m ->
  numberOfViolationsWithPriority env (answer_after h true ops QViolations) p = Val n ->
  (m <= n)%Z.
Proof.
  intros h ops env p m n H. unfold numberOfViolationsWithPriority. rewrite !priority_loop.
  destruct (forallb _ (answer_after h false ops QViolations)); try discriminate.
  destruct (forallb _ (answer_after h true ops QViolations)); try discriminate.
  intros [= <-] [= <-].
  pose proof (c03_dedup_counts_at_most_raw h ops QViolations (has_priorityb env p) H). lia.
Qed.

Theorem c03_equal_iff_no_repetition : forall (h : violation -> Z) ops q,
  (forall l, In (q, l) (snd (run_hist h ops c_empty (getResults false))) -> l = []) ->
  (answer_after h false ops q = answer_after h true ops q <-> NoDup (recorded q ops)).
Proof. exact c03_equal. Qed.

Example c03_case :
  NoDup (recorded QViolations [RecSet [ex_v1]; RecSet [ex_v2]])
  /\ ~ NoDup (recorded QViolations [RecSet [ex_v1]; RecSet [ex_v1]]).
Proof.
  split; simpl.
  - repeat constructor; simpl; intros H; repeat destruct H as [H|H]; discriminate || auto.
  - intros H. inversion H; subst. apply H2. now left.
Qed.

(** ** C04. *)
Theorem c04_priority_count_exact : forall env l p,
  Forall (fun v => v_rule v <> None) l ->
  numberOfViolationsWithPriority env l p
  = Val (Z.of_nat (length (filter (has_priorityb env p) l))).
Proof. exact c04_val. Qed.

Theorem c04_has_priorityb_meaning : forall env p v,
  has_priorityb env p v = true <-> exists a, v_rule v = Some a /\ ri_priority (env a) = p.
Proof. exact has_priorityb_iff. Qed.

Theorem c04_priority_count_null_rule_ub : forall env l p,
  (exists v, In v l /\ v_rule v = None) -> numberOfViolationsWithPriority env l p = UB.
Proof. exact c04_ub. Qed.

Theorem c04_summary_adds_up_iff_priorities_1_2_3 : forall env l n1 n2 n3,
  numberOfViolationsWithPriority env l 1 = Val n1 ->
  numberOfViolationsWithPriority env l 2 = Val n2 ->
  numberOfViolationsWithPriority env l 3 = Val n3 ->
  ((n1 + n2 + n3)%Z = numberOfList l <->
   forall v, In v l -> has_priority env 1 v \/ has_priority env 2 v \/ has_priority env 3 v).
Proof. exact c04_sum. Qed.

(** Finding: a priority-10 rule is in the total but in none of the three numbers. *)
Theorem c04_summary_adds_up_refuted : exists env l n1 n2 n3,
  numberOfViolationsWithPriority env l 1 = Val n1 /\
  numberOfViolationsWithPriority env l 2 = Val n2 /\
  numberOfViolationsWithPriority env l 3 = Val n3 /\
  (n1 + n2 + n3 < numberOfList l)%Z.
Proof. exists ex_env, [ex_v1; ex_v2], 0%Z, 1%Z, 0%Z. repeat split; vm_compute; reflexivity. Qed.

Example c04_case : Forall (fun v => v_rule v <> None) [ex_v1; ex_v2; ex_v2]
  /\ map (numberOfViolationsWithPriority ex_env [ex_v1; ex_v2; ex_v2]) [1%Z; 2%Z; 3%Z; 10%Z] = [Val 0%Z; Val 2%Z; Val 0%Z; Val 1%Z].
Proof. split; [repeat constructor; discriminate|vm_compute; reflexivity]. Qed.

(** ** C05. *)
Theorem c05_files_with_violations_counts_first_paths : forall c,
  exists n, distinct_count (flat_map first_path (c_collection c)) n /\
            numberOfFilesWithViolations c = Z.of_nat n.
Proof. exact c05_count. Qed.

Theorem c05_files_with_violations_at_most_files : forall c,
  (numberOfFilesWithViolations c <= numberOfFiles c)%Z.
Proof. exact c05_le. Qed.

Theorem c05_files_with_violations_zero_iff_none : forall c,
  numberOfFilesWithViolations c = 0%Z <-> raw_allViolations c = [].
Proof. exact c05_zero. Qed.

(** Finding: the number is not the number of distinct files with a violation. *)
Theorem c05_counts_distinct_files_refuted : exists c n,
  distinct_count (map v_path (raw_allViolations c)) n /\
  numberOfFilesWithViolations c <> Z.of_nat n.
Proof.
  exists (c_add c_empty [ex_v1; ex_v2]), 2. split.
  - exists [$"a.m"; $"b.h"]. repeat split.
    + repeat constructor; simpl; intros H; repeat destruct H as [H|H]; discriminate || auto.
    + intros H; exact H.
    + intros H; exact H.
  - vm_compute. discriminate.
Qed.
Example c05_case : let c := {| c_collection := [[ex_v1; ex_v2]; []; [ex_v2]; [ex_v1]]; c_errors := []; c_warnings := []; c_bugs := [] |} in
  numberOfFiles c = 4%Z /\ numberOfFilesWithViolations c = 2%Z.
Proof. split; vm_compute; reflexivity. Qed.

(** ** C06. *)
Theorem c06_repeated_query_same_answer : forall (h : violation -> Z) c r q,
  ask h c (snd (ask h c r q)) q = (fst (ask h c r q), snd (ask h c r q)).
Proof. exact ask_stable. Qed.

(** Once a non-empty answer was given, every later history leaves the answer as it was. *)
Theorem c06_stale_after_nonempty_answer : forall (h : violation -> Z) ops1 ops2 q l,
  let '(c, r, _) := run_hist h ops1 c_empty (getResults false) in
  fst (ask h c r q) = l -> l <> [] ->
  let '(c', r', _) := run_hist h ops2 c (snd (ask h c r q)) in
  fst (ask h c' r' q) = l.
Proof. exact c06_stale. Qed.

(** As long as all earlier answers were empty, the answer is computed from what has been
    recorded up to now. *)
Theorem c06_empty_answer_recomputed : forall (h : violation -> Z) ops q,
  (forall l, In (q, l) (snd (run_hist h ops c_empty (getResults false))) -> l = []) ->
  forall v, In v (answer_after h false ops q) <-> In v (recorded q ops).
Proof. intros h ops q H. apply (c01 h ops q H). Qed.

(** Finding: hence the de-duplicated view can miss a recorded violation. *)
Theorem c06_reflects_all_recorded_refuted : exists (h : violation -> Z) ops v,
  In v (recorded QViolations ops) /\ ~ In v (answer_after h false ops QViolations).
Proof.
  exists (fun _ => 0%Z), [RecSet [ex_v1]; Ask QViolations; RecSet [ex_v2]], ex_v2. split.
  - simpl. auto.
  - vm_compute. intros [H|[]]; discriminate.
Qed.
Example c06_case : answer_after (fun _ => 0%Z) false [RecSet []; Ask QViolations; RecSet [ex_v2; ex_v1; ex_v2]] QViolations = [ex_v2; ex_v1]
  /\ forall l, In (QViolations, l) (snd (run_hist (fun _ => 0%Z) [RecSet []; Ask QViolations; RecSet [ex_v2; ex_v1; ex_v2]] c_empty (getResults false))) -> l = [].
Proof. split; [vm_compute; reflexivity|]. vm_compute. intros l [[= <-]|[]]. reflexivity. Qed.

(** ** C07.  [reports] made one after the other by rules of one unit. *)
Definition report_of (v : violation) (s : violationset) : violationset :=
  carrier_addViolation s (v_path v) (v_startLine v) (v_startColumn v) (v_endLine v)
    (v_endColumn v) (v_rule v) (v_message v).

Theorem c07_recorded_iff_path_nonempty : forall s path sl sc el ec rule msg,
  (path <> [] ->
   carrier_addViolation s path sl sc el ec rule msg
   = s ++ [{| v_rule := rule; v_path := path; v_startLine := sl; v_startColumn := sc;
              v_endLine := el; v_endColumn := ec; v_message := msg |}])
  /\ (path = [] -> carrier_addViolation s path sl sc el ec rule msg = s).
Proof.
  intros. rewrite carrier_add_eq. destruct (str_eq_dec path []); split; intros; congruence.
Qed.

Theorem c07_sequence_of_reports : forall reports s,
  fold_left (fun acc v => report_of v acc) reports s
  = s ++ filter (fun v => negb (str_eqb (v_path v) [])) reports.
Proof.
  induction reports as [|v rs IH]; intros s; simpl; [now rewrite app_nil_r|].
  rewrite IH. unfold report_of, carrier_addViolation, vs_addViolation.
  destruct (str_eqb (v_path v) []); simpl; auto.
  rewrite <- app_assoc. simpl. now destruct v.
Qed.

Example c07_case :
  fold_left (fun acc v => report_of v acc)
    [ex_v1; {| v_rule := None; v_path := []; v_startLine := 0; v_startColumn := 0;
               v_endLine := 0; v_endColumn := 0; v_message := [] |}; ex_v2] []
  = [ex_v1; ex_v2].
Proof. vm_compute. reflexivity. Qed.

Print Assumptions c01_dedup_one_copy_each.
Print Assumptions c01_dedup_hash_independent.
Print Assumptions c02_raw_reports_everything.
Print Assumptions c03_equal_iff_no_repetition.
Print Assumptions c04_summary_adds_up_iff_priorities_1_2_3.
Print Assumptions c05_files_with_violations_counts_first_paths.
Print Assumptions c06_stale_after_nonempty_answer.
Print Assumptions c07_sequence_of_reports.
