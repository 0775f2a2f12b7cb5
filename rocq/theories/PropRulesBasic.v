(** * C54-C56, C62: empty blocks, collapsible ifs, dead code, negations; C74-C79: basic rules *)
From Verif Require Import Base BaseFacts ModelAST ModelRules ModelRulesBasic SpecFilter SpecAST SpecRules SpecExec
  SpecRulesBasic ProofAST ProofRules ProofExec ProofRulesBasic PropAST.
Local Arguments lit : simpl never.

(** ** C54 *)
Theorem c54_exactly_empty_bodies : forall k root,
  reports_related (fun n b => body_of k n b /\ lone_semicolon_or_empty_block b) root (reports (empty_rule k) root).
Proof. intros. apply reports_related_intro. intros n. apply empty_rule_node. Qed.
(** A construct has at most one such body, so which statement is reported is determined. *)
Theorem c54_one_body : forall k n a b, body_of k n a -> body_of k n b -> a = b.
Proof. intros k n a b Ha Hb. inversion Ha; subst; inversion Hb; subst; congruence. Qed.
Definition ex_empties : node :=
  nd 1 (CompoundStmt [nd 2 (IfStmt [] (var 3) (nd 4 NullStmt) (Some (nd 5 (CompoundStmt []))));
                      nd 6 (WhileStmt [] (var 7) (nd 8 (CompoundStmt [nd 9 NullStmt])));
                      nd 10 (DoStmt (nd 11 (CompoundStmt [])) (var 12))]).
Example c54_case : map (fun k => map (fun r => n_id (rp_node r)) (reports (empty_rule k) ex_empties))
   [KIf; KElse; KWhile; KDo; KFor] = [[4]; [5]; []; [11]; []].
Proof. reflexivity. Qed.

(** ** C55 *)
Theorem c55_exactly_collapsible : forall root,
  reports_exactly (fun n => exists m, only_inner_if n m) (fun n => Report n []) root (reports CollapsibleIf_visit root).
Proof. intros. apply reports_exactly_intro. intros n. apply collapsible_node. Qed.
(** Merging the two conditions with && keeps the behaviour, whatever the conditions and the body
    do and wherever control enters, if the inner if declares no variable in its condition. *)
Theorem c55_merging_preserves_behaviour : forall st (atom : node -> st -> value -> st -> Prop) select n m p c t c' t' k cc,
  only_inner_if n m -> n_shape n = IfStmt p c t None -> n_shape m = IfStmt [] c' t' None ->
  n_shape k = IfStmt p cc t' None -> n_shape cc = BinaryOperator BO_LAnd c c' ->
  equivalent atom select n k.
Proof.
  intros st atom select n m p c t c' t' k cc (p0 & c0 & t0 & En & Et & _) En' Em Ek Ec.
  assert (t0 = t) as -> by congruence. eapply merge_equivalent; eauto.
Qed.
(** Finding: with a variable declared by the inner condition the rule still reports, but moving
    that declaration to the merged if changes what is executed. *)
Definition ex_vi (name : str) : varinfo :=
  {| v_isParm := false; v_name := name; v_used := true; v_referenced := true; v_local := true; v_staticMember := false;
     v_private := false; v_unusedAttr := false; v_defaultArg := false; v_canonicalType := $"int"; v_inTemplate := false;
     v_contexts := [] |}.
(** [if (0) if (int x = …) ;] *)
Definition ex_inner_decl : node :=
  nd 1 (IfStmt [] (nd 2 (IntegerLiteral 0))
     (nd 3 (IfStmt [nd 4 (VarDecl (ex_vi $"x") None)] (var 5) (nd 6 NullStmt) None)) None).
Theorem c55_inner_declaration_refuted : exists n m p c t p' c' t' k cc,
  reports CollapsibleIf_visit n = [Report n []] /\ only_inner_if n m
  /\ n_shape n = IfStmt p c t None /\ n_shape m = IfStmt p' c' t' None
  /\ n_shape k = IfStmt (p ++ p') cc t' None /\ n_shape cc = BinaryOperator BO_LAnd c c'
  /\ exists st (atom : node -> st -> value -> st -> Prop) select, ~ equivalent atom select n k.
Proof.
  exists ex_inner_decl, (nd 3 (IfStmt [nd 4 (VarDecl (ex_vi $"x") None)] (var 5) (nd 6 NullStmt) None)).
  eexists _, _, _, _, _, _.
  exists (nd 7 (IfStmt [nd 4 (VarDecl (ex_vi $"x") None)]
     (nd 8 (BinaryOperator BO_LAnd (nd 2 (IntegerLiteral 0)) (var 5))) (nd 6 NullStmt) None)).
  eexists. split; [reflexivity|]. split.
  { do 3 eexists. split; [reflexivity|]. split; [left; reflexivity|]. do 3 eexists. reflexivity. }
  do 4 (split; [reflexivity|]).
  (* a literal is false; a declaration sets the state *)
  exists bool, (fun n s v s' => match n_shape n with VarDecl _ _ => v = Truth true /\ s' = true
                                | _ => v = Truth false /\ s' = s end), (fun _ _ _ _ => False).
  intros H. specialize (H Start false Normal true). destruct H as [_ H].
  destruct H as [tr X].
  - exists []. eapply x_if_none; [reflexivity|]. eapply hd_cond.
    + eapply es_cons; [|apply es_nil]. apply ev_atom; [intros []|]. split; reflexivity.
    + eapply ev_and_left; [reflexivity| |discriminate]. apply ev_atom; [intros []|]. split; reflexivity.
  - assert (D : does _ _ ex_inner_decl Start false Normal true) by (exists tr; exact X).
    apply (does_if _ _ ex_inner_decl _ _ _ _ _ _ _ eq_refl) in D as [(a & [=] & _)|[(s1 & K & _)|(s1 & K & _ & ->)]];
      apply head_nil in K; inversion K; subst; cbn in *; try discriminate;
      match goal with A : _ /\ _ |- _ => destruct A; discriminate end.
Qed.
(** The hypotheses of the merging theorem are met by [if (a) { if (a) foo; }]. *)
Example c55_case : exists n m k,
  only_inner_if n m /\ n_shape m = IfStmt [] (var 4) (var 5) None
  /\ n_shape n = IfStmt [] (var 2) (nd 3 (CompoundStmt [m])) None
  /\ n_shape k = IfStmt [] (nd 7 (BinaryOperator BO_LAnd (var 2) (var 4))) (var 5) None
  /\ reports CollapsibleIf_visit n = [Report n []].
Proof.
  exists (nd 1 (IfStmt [] (var 2) (nd 3 (CompoundStmt [nd 6 (IfStmt [] (var 4) (var 5) None)])) None)).
  exists (nd 6 (IfStmt [] (var 4) (var 5) None)), (nd 8 (IfStmt [] (nd 7 (BinaryOperator BO_LAnd (var 2) (var 4))) (var 5) None)).
  split; [|do 3 (split; [reflexivity|]); reflexivity].
  do 3 eexists. split; [reflexivity|]. split; [right; reflexivity|]. do 3 eexists. reflexivity.
Qed.

(** ** C56 *)
(** Per block the first statement without label that follows a statement always jumping away. *)
Theorem c56_reports_first_after_jump : forall root,
  reports_related first_after_jump root (reports DeadCode_visit root).
Proof.
  intros. apply reports_related_intro. intros n. unfold DeadCode_visit, first_after_jump.
  destruct (n_shape n) eqn:E; try (right; split; [intros m (? & ? & ? & K & _); discriminate|reflexivity]).
  destruct (deadCode_spec body false) as [(H & N & _)|[(r & [=] & _)|(i & p & r & F & M & _ & H)]].
  - right. split; auto. intros m (l & i & p & [= <-] & F & _). eapply N; eauto.
  - left. exists r. split; auto. exists body, i, p. auto.
Qed.
Theorem c56_at_most_one_per_block : forall n, length (DeadCode_visit n) <= 1.
Proof.
  intros n. unfold DeadCode_visit. destruct (n_shape n); simpl; auto.
  destruct (deadCode_spec body false) as [(H & _)|[(r & [=] & _)|(i & p & r & _ & _ & _ & H)]]; rewrite H; simpl; auto.
Qed.
(** A reported statement is not reached by any run of any function body, entered at the start or
    at any label, for all meanings of expressions, if the statement before it bears no other
    label than case labels at its start. *)
Theorem c56_reported_never_reached : forall block l r,
  n_shape block = CompoundStmt l -> DeadCode_visit block = [Report r []] ->
  exists i p, nth_error l i = Some p /\ nth_error l (S i) = Some r
    /\ (own_labels_only p ->
        forall st (atom : node -> st -> value -> st -> Prop) select body en s t o s',
          run atom select body en s t o s' -> ~ In (block, S i) t).
Proof.
  intros block l r E V. unfold DeadCode_visit in V. rewrite E in V.
  destruct (deadCode_spec l false) as [(H & _)|[(x & [=] & _)|(i & p & x & (F1 & F2 & F3 & F4) & _ & _ & H)]];
    rewrite H in V; [discriminate|]. injection V as ->.
  exists i, p. split; auto. split; auto. intros O st atom select body en s t o s' R I.
  apply (run_clean _ _ _ _ _ _ _ _ R _ _ I). exists i, l, p. auto.
Qed.
(** Finding: without that condition a reported statement can be reached:
    [{ if (a) goto L; { return; L: ; } foo; }]. *)
Definition ex_nested_label : node :=
  nd 1 (CompoundStmt [nd 2 (IfStmt [] (var 3) (nd 4 (GotoStmt $"L")) None);
                      nd 5 (CompoundStmt [nd 6 (ReturnStmt None); nd 7 (LabelStmt $"L" (nd 8 NullStmt))]);
                      nd 9 NullStmt]).
Theorem c56_nested_label_refuted : exists body r,
  DeadCode_visit body = [Report r []]
  /\ exists st (atom : node -> st -> value -> st -> Prop) select s t o s',
       run atom select body Start s t o s' /\ In (body, 2) t
       /\ exists l, n_shape body = CompoundStmt l /\ nth_error l 2 = Some r.
Proof.
  exists ex_nested_label, (nd 9 NullStmt). split; [reflexivity|].
  exists unit, (fun _ _ v _ => v = Truth true), (fun _ _ _ _ => False), tt.
  do 3 eexists. split; [|split].
  - eapply run_goto with (l := $"L").
    + eapply x_compound; [reflexivity|]. apply xs_abrupt. eapply x_if_true; [reflexivity| |].
      * apply head_nil. apply ev_atom; [intros []|reflexivity].
      * apply x_goto. reflexivity.
    + eapply in_sub with (m := nd 5 (CompoundStmt [nd 6 (ReturnStmt None); nd 7 (LabelStmt $"L" (nd 8 NullStmt))])).
      * right. left. reflexivity.
      * intros i [=].
      * eapply in_sub with (m := nd 7 (LabelStmt $"L" (nd 8 NullStmt))).
        -- right. left. reflexivity.
        -- intros i [=].
        -- eapply in_label. reflexivity.
    + apply run_once. eapply x_compound; [reflexivity|].
      apply xs_skip; [discriminate| |].
      * intros I. inversion I; subst; try discriminate. cbn in H. destruct H as [<-|[]].
        inversion H1; subst; try discriminate. destruct H.
      * eapply xs_enter.
        -- eapply in_sub with (m := nd 7 (LabelStmt $"L" (nd 8 NullStmt))).
           ++ right. left. reflexivity.
           ++ intros i [=].
           ++ eapply in_label. reflexivity.
        -- eapply x_compound; [reflexivity|]. apply xs_skip; [discriminate| |].
           ++ intros I. inversion I; subst; try discriminate. destruct H.
           ++ eapply xs_enter.
              ** eapply in_label. reflexivity.
              ** eapply x_label_here; [reflexivity|]. apply x_null. reflexivity.
              ** apply xs_nil.
        -- eapply xs_next; [apply x_null; reflexivity|apply xs_nil].
  - cbn. auto.
  - eexists. split; reflexivity.
  Unshelve. all: exact tt.
Qed.
(** The hypothesis on labels is met: [{ case 1: return; foo; }] and if/else both returning. *)
Example c56_case : exists block r p l,
  n_shape block = CompoundStmt l /\ DeadCode_visit block = [Report r []]
  /\ nth_error l 0 = Some p /\ own_labels_only p /\ always_jumps p.
Proof.
  exists (nd 1 (CompoundStmt [nd 2 (CaseStmt (var 3) (nd 4 (IfStmt [] (var 5) (nd 6 (ReturnStmt None)) (Some (nd 7 BreakStmt))))); var 8])).
  exists (var 8). do 2 eexists. split; [reflexivity|]. split; [reflexivity|]. split; [reflexivity|]. split.
  - eapply ol_case; [reflexivity|]. apply ol_none. intros en I. inversion I; subst; try discriminate.
    cbn in H. destruct H as [<-|[<-|[]]]; inversion H1; subst; try discriminate; destruct H.
  - eapply aj_case; [reflexivity|]. eapply aj_if; [reflexivity| |]; apply aj_jump; unfold jump_statement; cbn; eauto.
Qed.

(** ** C62 *)
Theorem c62_double_negative_exactly : forall root,
  reports_exactly (unary_of_unary same_negation) (fun n => Report n []) root (reports DoubleNegative_visit root).
Proof.
  intros. apply reports_exactly_intro. intros n. eapply unary_node; [|unfold DoubleNegative_visit; reflexivity].
  intros o i. cbv beta. rewrite orb_true_iff, !andb_true_iff, !unop_eqb_eq. unfold same_negation.
  split; [intros [[-> ->]|[-> ->]]; auto|intros [<- [->| ->]]; auto].
Qed.
Theorem c62_multiple_unary_exactly : forall root,
  reports_exactly (unary_of_unary (fun o i => sign_or_negation o /\ sign_or_negation i)) (fun n => Report n []) root
    (reports MultipleUnary_visit root).
Proof.
  intros. apply reports_exactly_intro. intros n. eapply unary_node; [|unfold MultipleUnary_visit; reflexivity].
  intros o i. cbv beta. unfold isTargetUnaryOperator, sign_or_negation.
  rewrite !andb_true_iff, !orb_true_iff, !unop_eqb_eq. intuition.
Qed.
Theorem c62_double_negative_is_multiple : forall root r,
  In r (reports DoubleNegative_visit root) -> In r (reports MultipleUnary_visit root).
Proof.
  intros root r. rewrite !reports_nodes, !in_flat_map. intros (n & Hn & H). exists n. split; auto.
  unfold DoubleNegative_visit in H. unfold MultipleUnary_visit. destruct (n_shape n); try tauto.
  destruct (n_shape (skipParens sub)); try tauto. destruct op, op0; cbn in *; tauto.
Qed.
(** The reported double logical negation can be dropped, for every operand. *)
Theorem c62_double_not_is_identity : forall st (atom : node -> st -> value -> st -> Prop) n sub e x s v s',
  n_shape n = UnaryOperator UO_LNot sub -> parenthesised sub e -> n_shape e = UnaryOperator UO_LNot x ->
  (eval atom n s v s' <-> eval atom x s v s').
Proof.
  intros st atom n sub e x s v s' En P Ee. rewrite (eval_not _ n sub _ _ _ En). split.
  - intros (w & H & ->). apply (eval_parens _ _ _ _ _ _ P) in H. apply (eval_not _ e x _ _ _ Ee) in H as ([b|a] & H & ->); auto.
    now rewrite negb_involutive.
  - intros H. destruct v as [b|a].
    + exists (Truth (negb b)). rewrite negb_involutive. split; auto.
      apply (eval_parens _ _ _ _ _ _ P), (eval_not _ e x _ _ _ Ee). eauto.
    + exists (Fails a). split; auto. apply (eval_parens _ _ _ _ _ _ P), (eval_not _ e x _ _ _ Ee). eexists; split; eauto.
Qed.
Definition ex_negations : node :=
  nd 1 (UnaryOperator UO_LNot (nd 2 (ParenExpr (nd 3 (ParenExpr (nd 4 (UnaryOperator UO_LNot
    (nd 5 (UnaryOperator UO_Minus (nd 6 (UnaryOperator UO_Minus (var 7)))))))))))).
Example c62_case : map (fun r => n_id (rp_node r)) (reports DoubleNegative_visit ex_negations) = [1]
  /\ map (fun r => n_id (rp_node r)) (reports MultipleUnary_visit ex_negations) = [1; 4; 5].
Proof. split; reflexivity. Qed.

(** ** C74 *)
Theorem c74_bitwise_condition_exactly : forall root,
  reports_related (fun n c => condition_of n c /\ exists m, below c m /\ bitwise_operator m) root
    (reports BitwiseOperatorInConditional_visit root).
Proof. intros. apply reports_related_intro. intros n. apply bitwise_node. Qed.
Example c74_case : map (fun r => n_id (rp_node r)) (reports BitwiseOperatorInConditional_visit
   (nd 1 (IfStmt [] (nd 2 (BinaryOperator BO_LAnd (var 3) (nd 4 (ParenExpr (nd 5 (BinaryOperator BO_Xor (var 6) (var 7)))))))
     (nd 8 (WhileStmt [] (var 9) (nd 10 (BinaryOperator BO_Or (var 11) (var 12))))) None))) = [2].
Proof. reflexivity. Qed.

(** ** C75 *)
Theorem c75_oddness_check_exactly : forall root,
  reports_exactly oddness_check (fun n => Report n []) root (reports BrokenOddnessCheck_visit root).
Proof. intros. apply reports_exactly_intro. intros n. apply oddness_node. Qed.
(** Exchanging the operands of the comparison never changes the verdict. *)
Theorem c75_symmetric : forall i j ty ty' a b,
  BrokenOddnessCheck_visit (Node i ty (BinaryOperator BO_EQ a b)) = [] <->
  BrokenOddnessCheck_visit (Node j ty' (BinaryOperator BO_EQ b a)) = [].
Proof.
  intros. unfold BrokenOddnessCheck_visit, isRemainderEqualsOne. cbn [n_shape]. rewrite orb_comm.
  match goal with |- context [if ?c then _ else _] => destruct c end; split; congruence.
Qed.
(** The advice is right: with C's remainder the reported test fails exactly on negative odd numbers. *)
Theorem c75_check_wrong_for_negatives : forall x, Z.odd x = true -> (Z.rem x 2 <> 1 <-> x < 0)%Z.
Proof.
  intros x H. apply Z.odd_spec in H as [k ->].
  assert (D : (0 <= 2 * k + 1 \/ 2 * k + 1 < 0)%Z) by lia. destruct D as [D|D].
  - rewrite Z.rem_mod_nonneg by lia. replace (2 * k + 1)%Z with (1 + k * 2)%Z by lia. rewrite Z.mod_add by lia. change (1 mod 2)%Z with 1%Z. lia.
  - replace (2 * k + 1)%Z with (- (- (2 * k + 1)))%Z by lia. rewrite Z.rem_opp_l by lia.
    rewrite Z.rem_mod_nonneg by lia.
    replace (- (2 * k + 1))%Z with (1 + (- k - 1) * 2)%Z by lia. rewrite Z.mod_add by lia. change (1 mod 2)%Z with 1%Z. lia.
Qed.
Example c75_case : oddness_check (nd 1 (BinaryOperator BO_EQ (nd 2 (IntegerLiteral 1))
   (nd 3 (BinaryOperator BO_Rem (var 4) (nd 5 (IntegerLiteral 2)))))).
Proof. do 2 eexists. split; [reflexivity|]. right. split; [reflexivity|]. do 2 eexists. split; reflexivity. Qed.

(** ** C76 *)
Theorem c76_for_as_while_exactly : forall root,
  reports_exactly while_like (fun n => Report n []) root (reports ForLoopShouldBeWhile_visit root).
Proof. intros. apply reports_exactly_intro. intros n. apply while_like_node. Qed.
(** The reported loop can be written as a while loop without changing any execution. *)
Theorem c76_while_behaves_alike : forall st (atom : node -> st -> value -> st -> Prop) select n p c b m,
  n_shape n = ForStmt None p (Some c) None b -> n_shape m = WhileStmt p c b ->
  equivalent atom select n m.
Proof.
  intros st atom select n p c b m En Em en s o s'.
  assert (Ln : loop_of n = loop_of m) by (unfold loop_of; rewrite En, Em; reflexivity).
  assert (Lm : exists L, loop_of m = Some L) by (unfold loop_of; rewrite Em; eauto).
  destruct Lm as [L Lm]. rewrite Lm in Ln. split; intros [t X]; exists t.
  - exact (same_loop _ _ _ _ _ _ _ _ _ _ Ln Lm X).
  - exact (same_loop _ _ _ _ _ _ _ _ _ _ Lm Ln X).
Qed.
Example c76_case : while_like (nd 1 (ForStmt None [] (Some (var 2)) None (nd 3 NullStmt))).
Proof. do 3 eexists. split; [reflexivity|discriminate]. Qed.

(** ** C77 *)
Theorem c77_jumbled_exactly : forall root,
  reports_related jumbled root (reports JumbledIncrementer_visit root).
Proof. intros. apply reports_related_intro. intros n. apply jumbled_node. Qed.
(** [for (int i; a; i++) { for (int j; a; i++) ; }] *)
Definition ex_jumbled : node :=
  let step i := nd i (UnaryOperator UO_Other (nd (S i) (DeclRefExpr 3 $"i" false))) in
  nd 1 (ForStmt (Some (nd 2 (DeclStmt [nd 3 (VarDecl (ex_vi $"i") None)]))) [] (Some (var 4)) (Some (step 5))
    (nd 7 (CompoundStmt [nd 8 (ForStmt (Some (nd 9 (DeclStmt [nd 10 (VarDecl (ex_vi $"j") None)]))) [] (Some (var 11))
       (Some (step 12)) (nd 14 NullStmt))]))).
Example c77_case : map (fun r => n_id (rp_node r)) (reports JumbledIncrementer_visit ex_jumbled) = [12].
Proof. reflexivity. Qed.

(** ** C78 *)
(** For each finally block, in order: the returns inside it. *)
Theorem c78_returns_in_finally : forall root,
  reports_per_node (fun n rs =>
    (is_finally n /\ exists sel, sublist_where is_return (nodes n) sel /\ rs = map (fun m => Report m []) sel)
    \/ (~ is_finally n /\ rs = [])) root (reports ReturnFromFinally_visit root).
Proof.
  intros. apply reports_per_node_intro. intros n. unfold ReturnFromFinally_visit, is_finally.
  destruct (n_shape n) eqn:E; try (right; split; [intros [? K]; discriminate|reflexivity]).
  left. split; [eauto|]. eexists. split; [apply collect_returns|reflexivity].
Qed.
(** For each finally block, in order: the throws inside it, then the messages raising an exception. *)
Theorem c78_throws_in_finally : forall root,
  reports_per_node (fun n rs =>
    (is_finally n /\ exists sel sel', sublist_where is_objc_throw (nodes n) sel /\ sublist_where raises (nodes n) sel'
        /\ rs = map (fun m => Report m []) (sel ++ sel'))
    \/ (~ is_finally n /\ rs = [])) root (reports ThrowFromFinally_visit root).
Proof.
  intros. apply reports_per_node_intro. intros n. unfold ThrowFromFinally_visit, is_finally.
  destruct (n_shape n) eqn:E; try (right; split; [intros [? K]; discriminate|reflexivity]).
  left. split; [eauto|]. do 2 eexists. split; [apply collect_throws|]. split; [apply collect_raisers|].
  now rewrite map_app.
Qed.
(** Finding: a return within two finally blocks is reported twice. *)
Definition ex_finally : node :=
  nd 1 (ObjCAtTryStmt (nd 2 (CompoundStmt [])) [] (Some (nd 3 (ObjCAtFinallyStmt (nd 4 (CompoundStmt
    [nd 5 (ObjCAtTryStmt (nd 6 (CompoundStmt [])) [] (Some (nd 7 (ObjCAtFinallyStmt (nd 8 (CompoundStmt
       [nd 9 (ReturnStmt None)]))))))])))))).
Theorem c78_reported_once_refuted : exists root r,
  reports ReturnFromFinally_visit root = [r; r].
Proof. exists ex_finally. eexists. reflexivity. Qed.
Example c78_case : reports ThrowFromFinally_visit
  (nd 1 (ObjCAtFinallyStmt (nd 2 (CompoundStmt [nd 3 (ObjCMessageExpr
      {| ms_selector := $"raise"; ms_receiver := RInstance; ms_implicit := false; ms_interface := Some $"NSException"; ms_method := None;
         ms_methodClass := None |} None [])])))) <> [].
Proof. discriminate. Qed.

(** ** C79 *)
(** [evaluate]: the compiler's constant folding of a condition. *)
Theorem c79_constant_condition_exactly : forall evaluate root,
  reports_related (fun n c => (exists t f, n_shape n = ConditionalOperator c t f) /\ exists b, evaluate c = Some b) root
    (reports (ConstantConditional_visit evaluate) root)
  /\ reports_related (fun n c => (exists p t e, n_shape n = IfStmt p c t e) /\ exists b, evaluate c = Some b) root
       (reports (ConstantIf_visit evaluate) root).
Proof.
  intros. split; apply reports_related_intro; intros n; unfold ConstantConditional_visit, ConstantIf_visit;
    destruct (n_shape n) eqn:E;
    try (right; split; [intros m [(? & ? & K) _]; discriminate|reflexivity]);
    try (right; split; [intros m [(? & ? & ? & K) _]; discriminate|reflexivity]);
    destruct (evaluate cond) as [b|] eqn:V; cbn [is_some].
  - left. exists cond. split; [|reflexivity]. split; eauto.
  - right. split; auto. intros m [(? & ? & K) [b B]]. congruence.
  - left. exists cond. split; [|reflexivity]. split; eauto.
  - right. split; auto. intros m [(? & ? & ? & K) [b B]]. congruence.
Qed.
Theorem c79_goto_exactly : forall root,
  reports_exactly (fun n => exists l, n_shape n = GotoStmt l) (fun n => Report n []) root (reports Goto_visit root).
Proof.
  intros. apply reports_exactly_intro. intros n. unfold Goto_visit. destruct (n_shape n);
    try (right; split; [intros [? K]; discriminate|reflexivity]). left. split; [eauto|reflexivity].
Qed.
Example c79_case : map (fun r => n_id (rp_node r)) (reports Goto_visit ex_nested_label) = [4].
Proof. reflexivity. Qed.

Print Assumptions c54_exactly_empty_bodies.
Print Assumptions c54_one_body.
Print Assumptions c55_exactly_collapsible.
Print Assumptions c55_merging_preserves_behaviour.
Print Assumptions c55_inner_declaration_refuted.
Print Assumptions c56_reports_first_after_jump.
Print Assumptions c56_at_most_one_per_block.
Print Assumptions c56_reported_never_reached.
Print Assumptions c56_nested_label_refuted.
Print Assumptions c62_double_negative_exactly.
Print Assumptions c62_multiple_unary_exactly.
Print Assumptions c62_double_negative_is_multiple.
Print Assumptions c62_double_not_is_identity.
Print Assumptions c74_bitwise_condition_exactly.
Print Assumptions c75_oddness_check_exactly.
Print Assumptions c75_symmetric.
Print Assumptions c75_check_wrong_for_negatives.
Print Assumptions c76_for_as_while_exactly.
Print Assumptions c76_while_behaves_alike.
Print Assumptions c77_jumbled_exactly.
Print Assumptions c78_returns_in_finally.
Print Assumptions c78_throws_in_finally.
Print Assumptions c78_reported_once_refuted.
Print Assumptions c79_constant_condition_exactly.
Print Assumptions c79_goto_exactly.
