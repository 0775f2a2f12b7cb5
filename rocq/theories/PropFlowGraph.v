(** * Property C143: cyclomatic complexity is McCabe's number of the flow graph *)
From Verif Require Import Base BaseFacts ModelAST SpecFilter SpecAST SpecCourses SpecFlowGraph ProofFilter ProofAST ProofCourses ProofFlowGraph ProofFlowDraw PropAST PropCourses.
Local Arguments lit : simpl never.

(** For every flow graph of a function, edges - vertices + 2 is the number OCLint computes, once for
    loops without a condition and range-based loops are set against each other: it counts the former,
    where nothing is decided, and not the latter, where something is. *)
Theorem c143_cyclomatic_number : forall simple d V E endless ranges, flow_graph simple d V E ->
  sublist_where endless_for (nodes d) endless -> sublist_where range_for (nodes d) ranges ->
  (getCyclomaticComplexity d + Z.of_nat (length ranges) = cyclomatic_number V E + Z.of_nat (length endless))%Z.
Proof.
  intros simple d V E F R G HF HR. apply graph_size in G. pose proof (asks_counts d F R HF HR). unfold cyclomatic_number. lia.
Qed.
(** Without either it is exactly McCabe's number. *)
Theorem c143_is_mccabes_number : forall simple d V E, flow_graph simple d V E ->
  (forall n, below d n -> ~ endless_for n /\ ~ range_for n) -> getCyclomaticComplexity d = cyclomatic_number V E.
Proof.
  intros simple d V E G H.
  assert (K : forall P : node -> Prop, (forall n, In n (nodes d) -> ~ P n) -> sublist_where P (nodes d) []).
  { intros P. generalize (nodes d). induction l; intros Q; constructor; auto; [apply Q; now left|apply IHl; intros; apply Q; now right]. }
  pose proof (c143_cyclomatic_number simple d V E [] [] G
    (K endless_for (fun n I => proj1 (H n (proj1 (in_nodes d n) I))))
    (K range_for (fun n I => proj2 (H n (proj1 (in_nodes d n) I))))) as Q. cbn in Q. lia.
Qed.
(** Every function made of the statements and expressions told about, with all its jumps going
    somewhere, has a flow graph. *)
Theorem c143_graphs_exist : forall simple d, drawable_function simple d -> exists V E, flow_graph simple d V E.
Proof. intros simple d H. now apply draw_function. Qed.
(** Whichever graph is drawn, the number is the same. *)
Theorem c143_one_number : forall simple d V E V' E', flow_graph simple d V E -> flow_graph simple d V' E' ->
  cyclomatic_number V E = cyclomatic_number V' E'.
Proof. intros simple d V E V' E' G G'. apply graph_size in G, G'. unfold cyclomatic_number. lia. Qed.

(** Where NPath looks at all decisions, and every switch has a default and a group of statements for
    each of its labels, cyclomatic complexity is at most NPath complexity … *)
Theorem c143_at_most_npath : forall n v, seen n -> nPath n = Val v -> (getCyclomaticComplexity n <= v)%Z.
Proof. intros n v S H. apply nPath_val in H. subst v. pose proof (seen_bound n S). unfold decides in *. lia. Qed.
(** … and so at most the number of courses, where NPath counts those. *)
Theorem c143_at_most_courses : forall n v k, seen n -> structured n -> nPath n = Val v -> count n k ->
  (getCyclomaticComplexity n <= Z.of_nat k)%Z.
Proof.
  intros n v k S T H K. destruct (c140_counts_courses n v T H) as (k' & K' & ->).
  rewrite (c140_count_is_unique n k k' K K'). now apply c143_at_most_npath.
Qed.

(** ** Examples *)
Definition ex_function (b : node) : node :=
  nd 0 (FunctionDecl {| f_name := $"f"; f_method := None; f_isDefinition := true; f_bodyLines := 3 |} [] (Some b)).
Ltac leaf := apply ev_turn; [exact eq_refl|intros ? []].
Lemma var_evaluable simple i : evaluable simple (var i).
Proof. leaf. Qed.
Lemma leaf_below i t s m : children s = [] -> below (Node i t s) m -> m = Node i t s.
Proof. intros K H. inversion H; subst; auto. unfold kids in *. cbn [n_shape] in *. rewrite K in *. contradiction. Qed.
Lemma var_undecided i : undecided (var i).
Proof. intros m H. apply leaf_below in H; [|reflexivity]. subst. split; [intros D; inversion D|intros (? & ? & ? & ? & Q); discriminate]. Qed.
Lemma null_undecided i : undecided (nd i NullStmt).
Proof. intros m H. apply leaf_below in H; [|reflexivity]. subst. split; [intros D; inversion D|intros (? & ? & ? & ? & Q); discriminate]. Qed.
(** [{ again: if (a && b) while (a) { if (a) continue; a; }
       else switch (a) { case a: a; break; case b: default: a; }
       try { a; } catch (...) { goto again; } return a ? b : c; }] *)
Definition ex_loop : node := nd 10 (WhileStmt [] (var 11) (nd 12 (CompoundStmt
  [nd 13 (IfStmt [] (var 14) (nd 15 ContinueStmt) None); var 16]))).
Definition ex_switch : node := nd 20 (SwitchStmt [] (var 21) (nd 22 (CompoundStmt
  [nd 23 (CaseStmt (var 24) (var 25)); nd 26 BreakStmt; nd 27 (CaseStmt (var 28) (nd 29 (DefaultStmt (var 30))))])) false).
Definition ex_jumps : node := ex_function (nd 1 (CompoundStmt
  [nd 2 (LabelStmt $"again" (nd 3 (IfStmt [] (nd 4 (BinaryOperator BO_LAnd (var 5) (var 6))) ex_loop (Some ex_switch))));
   nd 40 (CXXTryStmt (nd 41 (CompoundStmt [var 42])) [nd 43 (CXXCatchStmt None (nd 44 (CompoundStmt [nd 45 (GotoStmt $"again")])))]);
   nd 50 (ReturnStmt (Some (nd 51 (ConditionalOperator (var 52) (var 53) (var 54)))))])).
Example c143_case : getCyclomaticComplexity ex_jumps = 9%Z
  /\ exists V E, flow_graph (fun _ => False) ex_jumps V E /\ cyclomatic_number V E = 9%Z.
Proof.
  assert (X : drawable_function (fun _ => False) ex_jumps).
  { exists [], (nd 1 (CompoundStmt
      [nd 2 (LabelStmt $"again" (nd 3 (IfStmt [] (nd 4 (BinaryOperator BO_LAnd (var 5) (var 6))) ex_loop (Some ex_switch))));
       nd 40 (CXXTryStmt (nd 41 (CompoundStmt [var 42])) [nd 43 (CXXCatchStmt None (nd 44 (CompoundStmt [nd 45 (GotoStmt $"again")])))]);
       nd 50 (ReturnStmt (Some (nd 51 (ConditionalOperator (var 52) (var 53) (var 54)))))])), [$"again"], [$"again"].
    split; [left; eexists; split; reflexivity|]. split; [intros ? []|]. split; [|split; [repeat constructor; intros []|intros ? ?; auto]].
    assert (EX : forall bk ct sw i, drawable (fun _ => False) bk ct sw (var i) 0 [] []) by (intros; apply dr_expression; [now left|apply var_evaluable]).
    eapply dr_block; [reflexivity|].
    refine (drs_next _ _ _ _ _ _ 0 [$"again"] [] 0 [] [$"again"] _ (drs_next _ _ _ _ _ _ 0 [] [$"again"] 0 [] [] _ (drs_next _ _ _ _ _ _ 0 [] [] 0 [] [] _ (drs_done _ _ _ _)))).
    - eapply dr_label; [reflexivity|]. eapply (dr_if_else _ _ _ _ (nd 3 _) [] _ ex_loop ex_switch 0 [] [] 0 [] []); [reflexivity|intros ? []| | |].
      + eapply ev_logic; [reflexivity|now left|apply var_evaluable|apply var_evaluable].
      + eapply dr_while; [reflexivity|intros ? []|apply var_evaluable|]. eapply dr_block; [reflexivity|].
        refine (drs_next _ _ _ _ _ _ 0 [] [] 0 [] [] _ (drs_next _ _ _ _ _ _ 0 [] [] 0 [] [] (EX _ _ _ _) (drs_done _ _ _ _))).
        eapply dr_if; [reflexivity|intros ? []|apply var_evaluable|]. now apply dr_continue.
      + apply (dr_switch _ _ _ _ ex_switch [] (var 21) _ false 1 [] [] eq_refl); [intros ? []|apply var_evaluable| |auto].
        eapply dr_block; [reflexivity|].
        refine (drs_next _ _ _ _ _ _ 0 [] [] 1 [] [] _ (drs_next _ _ _ _ _ _ 0 [] [] 1 [] [] _ (drs_next _ _ _ _ _ _ 1 [] [] 0 [] [] _ (drs_done _ _ _ _)))).
        * eapply dr_case; [reflexivity|apply var_undecided|apply EX].
        * now apply dr_break.
        * eapply dr_case; [reflexivity|apply var_undecided|]. eapply dr_default; [reflexivity|apply EX].
    - eapply (dr_try _ _ _ _ (nd 40 _) _ _ 0 [] [] 0 [] [$"again"]); [left; reflexivity| |eapply (drh_next _ _ _ _ (nd 43 _) [] None _ 0 [] [$"again"] 0 [] []); [left; reflexivity| | |apply drh_done]].
      + eapply dr_block; [reflexivity|]. exact (drs_next _ _ _ _ _ _ 0 [] [] 0 [] [] (EX _ _ _ _) (drs_done _ _ _ _)).
      + discriminate.
      + eapply dr_block; [reflexivity|]. refine (drs_next _ _ _ _ _ _ 0 [] [$"again"] 0 [] [] _ (drs_done _ _ _ _)). now apply dr_goto.
    - eapply dr_leave; [now left|]. intros x Q. injection Q as <-. eapply ev_choice; [reflexivity|apply var_evaluable..]. }
  assert (C : getCyclomaticComplexity ex_jumps = 9%Z) by reflexivity. split; [exact C|].
  destruct (c143_graphs_exist _ _ X) as (V & E & G). exists V, E. split; auto. rewrite <- C. symmetry.
  apply (c143_is_mccabes_number _ _ _ _ G). intros n I. apply in_nodes in I.
  vm_compute in I. repeat (destruct I as [<-|I]; [split; intros (? & ? & ? & ? & Q); discriminate Q|]). destruct I.
Qed.
(** A graph: [{ if (a) b; }]: the test at 0 and 1, [b] at 2, the exit at 3. *)
Example c143_graph : flow_graph (fun _ => False) (ex_function (nd 1 (IfStmt [] (var 2) (var 3) None)))
    [0; 1; 2; 3] [(0, 1); (1, 2); (1, 3); (2, 3)]
  /\ cyclomatic_number [0; 1; 2; 3] [(0, 1); (1, 2); (1, 3); (2, 3)] = 2%Z.
Proof.
  split; [|reflexivity].
  pose (T := {| t_break := None; t_continue := None; t_leave := 3; t_label := fun _ => 0 |}).
  exists T, [], (nd 1 (IfStmt [] (var 2) (var 3) None)), 0, [0; 1; 2].
  assert (W : forall i k j, value (fun _ => False) T (var k) i j [i] [(i, j)]).
  { intros. apply (va_turn (fun _ => False) T (var k) i i j [] []); [exact eq_refl|constructor]. }
  split; [left; eexists; split; reflexivity|]. split; [intros ? []|]. split; [|split; [reflexivity|split; [reflexivity|split; [reflexivity|split; [|split]]]]].
  - apply (fl_if (fun _ => False) T (nd 1 (IfStmt [] (var 2) (var 3) None)) [] (var 2) (var 3) 0 0 2 3 [] [] [0; 1] [(0, 1); (1, 2); (1, 3)] [2] [(2, 3)] [] [] eq_refl); [constructor| |].
    + apply (ts_value (fun _ => False) T (var 2) 0 1 2 3 [0] [(0, 1)]). apply W.
    + apply fl_expression; [reflexivity|apply W].
  - repeat constructor; cbn; intuition discriminate.
  - intros a b I. cbn in I. repeat (destruct I as [Q|I]; [injection Q as <- <-; cbn; auto 6|]). destruct I.
  - now left.
Qed.
(** Finding: [{ for (;;) return; }] decides nothing but is counted. *)
Theorem c143_endless_for_refuted : exists simple d V E, flow_graph simple d V E
  /\ (cyclomatic_number V E < getCyclomaticComplexity d)%Z.
Proof.
  pose (d := ex_function (nd 1 (ForStmt None [] None None (nd 2 (ReturnStmt None))))).
  assert (X : drawable_function (fun _ => False) d).
  { exists [], (nd 1 (ForStmt None [] None None (nd 2 (ReturnStmt None)))), [], [].
    split; [left; eexists; split; reflexivity|]. split; [intros ? []|]. split; [|split; [constructor|intros ? []]].
    eapply dr_for; [reflexivity|discriminate|intros ? []|discriminate|discriminate|]. eapply dr_leave; [now left|discriminate]. }
  destruct (c143_graphs_exist _ _ X) as (V & E & G). exists (fun _ => False), d, V, E. split; auto.
  pose proof (graph_size _ _ _ _ G) as Q. change (asks d) with 0%Z in Q. change (getCyclomaticComplexity d) with 2%Z. unfold cyclomatic_number. lia.
Qed.
(** Finding: [{ for (a : b) ; }] decides at every turn but is not counted. *)
Theorem c143_range_for_refuted : exists simple d V E, flow_graph simple d V E
  /\ (getCyclomaticComplexity d < cyclomatic_number V E)%Z.
Proof.
  pose (d := ex_function (nd 1 (CXXForRangeStmt None (var 2) (var 3) (nd 4 NullStmt)))).
  assert (X : drawable_function (fun _ => False) d).
  { exists [], (nd 1 (CXXForRangeStmt None (var 2) (var 3) (nd 4 NullStmt))), [], [].
    split; [left; eexists; split; reflexivity|]. split; [intros ? []|]. split; [|split; [constructor|intros ? []]].
    eapply dr_range; [reflexivity|discriminate|apply var_evaluable|apply var_evaluable|]. now apply dr_null. }
  destruct (c143_graphs_exist _ _ X) as (V & E & G). exists (fun _ => False), d, V, E. split; auto.
  pose proof (graph_size _ _ _ _ G) as Q. change (asks d) with 1%Z in Q. change (getCyclomaticComplexity d) with 1%Z. unfold cyclomatic_number. lia.
Qed.
(** [switch (a) { case a: if (b) ; break; default: while (a && b) ; }]: 5 of 5 *)
Example c143_bound_case : let n := nd 1 (SwitchStmt [] (var 2) (nd 3 (CompoundStmt
    [nd 4 (CaseStmt (var 5) (nd 6 (IfStmt [] (var 7) (nd 8 NullStmt) None))); nd 9 BreakStmt;
     nd 10 (DefaultStmt (nd 11 (WhileStmt [] (nd 12 (BinaryOperator BO_LAnd (var 13) (var 14))) (nd 15 NullStmt))))])) false) in
  seen n /\ nPath n = Val 5%Z /\ getCyclomaticComplexity n = 5%Z.
Proof.
  cbn zeta. split; [|split; reflexivity].
  assert (N : forall i, seen (nd i NullStmt)) by (intros; apply se_none; [exact Logic.I|apply null_undecided]).
  assert (B : seen (nd 9 BreakStmt)).
  { apply se_none; [exact Logic.I|]. intros m H. apply leaf_below in H; [|reflexivity]. subst. split; [intros D; inversion D|intros (? & ? & ? & ? & Q); discriminate]. }
  eapply se_switch with (groups := [[_; _]; [_]]); [reflexivity|reflexivity|intros ? []|apply lg_none, var_undecided| | | | | |].
  - split; [reflexivity|]. split; [intros ? []|]. intros g [<-|[<-|[]]].
    + do 2 eexists. split; [reflexivity|]. split; [left; do 2 eexists; reflexivity|]. intros x [<-|[]] [(? & ? & Q)|(? & Q)]; discriminate.
    + do 2 eexists. split; [reflexivity|]. split; [right; eexists; reflexivity|]. intros ? [].
  - do 2 eexists. split; [right; right; left; reflexivity|reflexivity].
  - intros x [<-|[<-|[<-|[]]]] Q; auto; exfalso; apply Q; [left; do 2 eexists; reflexivity|right; eexists; reflexivity].
  - intros x v s [<-|[<-|[<-|[]]]] Q; try discriminate. cbn in Q. injection Q as <- <-. apply var_undecided.
  - intros x v s [<-|[<-|[<-|[]]]] Q; try discriminate. cbn in Q. injection Q as <- <-.
    eapply se_if; [reflexivity|intros ? []|apply lg_none, var_undecided|apply N|discriminate].
  - intros x s [<-|[<-|[<-|[]]]] Q; try discriminate. cbn in Q. injection Q as <-.
    eapply se_while; [reflexivity|intros ? []| |apply N]. eapply lg_binary; [reflexivity|now left|apply lg_none, var_undecided|apply lg_none, var_undecided].
Qed.
(** Finding: labels that share their statements count one by one for cyclomatic complexity and once
    for NPath: [switch (a) { case a: case b: case c: ; break; default: ; }] has 4 and 2. *)
Theorem c143_shared_labels_refuted : exists n v, nPath n = Val v /\ (v < getCyclomaticComplexity n)%Z.
Proof.
  exists (nd 1 (SwitchStmt [] (var 2) (nd 3 (CompoundStmt
    [nd 4 (CaseStmt (var 5) (nd 6 (CaseStmt (var 7) (nd 8 (CaseStmt (var 9) (nd 10 NullStmt)))))); nd 11 BreakStmt;
     nd 12 (DefaultStmt (nd 13 NullStmt))])) false)), 2%Z. split; [reflexivity|]. cbn. lia.
Qed.
Print Assumptions c143_cyclomatic_number.
Print Assumptions c143_is_mccabes_number.
Print Assumptions c143_graphs_exist.
Print Assumptions c143_one_number.
Print Assumptions c143_at_most_npath.
Print Assumptions c143_at_most_courses.
Print Assumptions c143_endless_for_refuted.
Print Assumptions c143_range_for_refuted.
Print Assumptions c143_shared_labels_refuted.
