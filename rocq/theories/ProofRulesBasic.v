(** * Lemmas about the rules on empty blocks and the basic rules *)
From Verif Require Import Base BaseFacts ModelAST ModelRules ModelRulesBasic SpecFilter ProofFilter SpecAST ProofAST
  SpecRules ProofRules SpecExec SpecRulesBasic ProofExec.
Local Arguments lit : simpl never.

Lemma reports_related_intro (R : node -> node -> Prop) f root :
  (forall n, (exists m, R n m /\ f n = [Report m []]) \/ ((forall m, ~ R n m) /\ f n = [])) ->
  reports_related R root (reports f root).
Proof.
  intros H. unfold reports_related. rewrite reports_nodes. induction (nodes root) as [|a l IH].
  - exists []. split; constructor.
  - destruct IH as (sel & S & F). cbn [flat_map]. destruct (H a) as [(m & Hm & E)|[N E]]; rewrite E.
    + exists (a :: sel). split; [constructor; eauto|]. constructor; eauto.
    + exists sel. split; [constructor; auto|exact F]. intros (m & K). eapply N; eauto.
Qed.

Lemma lexical_empty_iff n : isLexicalEmpty n = true <-> lone_semicolon_or_empty_block n.
Proof.
  unfold isLexicalEmpty, lone_semicolon_or_empty_block. destruct (n_shape n); split; intros H; auto;
    try discriminate; try (destruct H as [H|H]; discriminate H).
  - destruct body; [auto|discriminate].
  - destruct H as [H|H]; [discriminate|]. now injection H as ->.
Qed.
Lemma empty_check b : (lone_semicolon_or_empty_block b /\ checkLexicalEmptyStmt (Some b) = [Report b []])
  \/ (~ lone_semicolon_or_empty_block b /\ checkLexicalEmptyStmt (Some b) = []).
Proof.
  cbn [checkLexicalEmptyStmt]. pose proof (lexical_empty_iff b) as L. destruct (isLexicalEmpty b).
  - left. split; [now apply L|reflexivity].
  - right. split; auto. intros H. apply L in H. discriminate.
Qed.
Lemma empty_rule_node k n :
  (exists m, (body_of k n m /\ lone_semicolon_or_empty_block m) /\ empty_rule k n = [Report m []])
  \/ ((forall m, ~ (body_of k n m /\ lone_semicolon_or_empty_block m)) /\ empty_rule k n = []).
Proof.
  assert (X : forall b, body_of k n b -> (forall m, body_of k n m -> m = b) ->
     empty_rule k n = checkLexicalEmptyStmt (Some b) ->
     (exists m, (body_of k n m /\ lone_semicolon_or_empty_block m) /\ empty_rule k n = [Report m []])
     \/ ((forall m, ~ (body_of k n m /\ lone_semicolon_or_empty_block m)) /\ empty_rule k n = [])).
  { intros b Hb U E. destruct (empty_check b) as [[L F]|[L F]]; [left|right].
    - exists b. rewrite E, F. auto.
    - rewrite E, F. split; auto. intros m [K1 K2]. apply U in K1. subst. auto. }
  assert (N : (forall m, ~ body_of k n m) -> empty_rule k n = [] ->
     (exists m, (body_of k n m /\ lone_semicolon_or_empty_block m) /\ empty_rule k n = [Report m []])
     \/ ((forall m, ~ (body_of k n m /\ lone_semicolon_or_empty_block m)) /\ empty_rule k n = [])).
  { intros H E. right. split; auto. intros m [K _]. eapply H; eauto. }
  destruct (n_shape n) eqn:E;
    destruct k; unfold empty_rule, EmptyIf_visit, EmptyElse_visit, EmptyWhile_visit, EmptyDoWhile_visit, EmptyFor_visit,
      EmptySwitch_visit, EmptyTry_visit, EmptyCatch_visit, EmptyFinally_visit in *; rewrite E in *;
    try (apply N; [intros m K; inversion K; congruence|reflexivity]; fail);
    try (eapply X; [econstructor; eassumption|intros m K; inversion K; congruence|reflexivity]; fail).
  destruct elseS as [e|].
  - eapply X; [econstructor; eassumption|intros m K; inversion K; congruence|reflexivity].
  - apply N; [intros m K; inversion K; congruence|reflexivity].
Qed.

Lemma isIfStmt_iff n : isIfStmt n = true <-> exists p c t e, n_shape n = IfStmt p c t e.
Proof.
  unfold isIfStmt. destruct (n_shape n); split; intros H; try discriminate H; try (destruct H as (? & ? & ? & ? & H); discriminate H).
  - do 4 eexists; reflexivity.
  - reflexivity.
Qed.
Lemma inner_if n p c t : n_shape n = IfStmt p c t None ->
  match getInnerIfStmt n with
  | Some m => (t = m \/ n_shape t = CompoundStmt [m]) /\ isIfStmt m = true
  | None => forall m, (t = m \/ n_shape t = CompoundStmt [m]) -> isIfStmt m = false
  end.
Proof.
  intros E. unfold getInnerIfStmt. rewrite E. destruct (isIfStmt t) eqn:I; [auto|].
  destruct (n_shape t) eqn:F; try (intros m [->|K]; [auto|congruence]).
  destruct body as [|x [|y l]]; try (intros m [->|K]; [auto|congruence]).
  destruct (isIfStmt x) eqn:J.
  - auto.
  - intros m [->|[= <-]]; auto.
Qed.
Lemma collapsible_node n :
  (exists m, only_inner_if n m) /\ CollapsibleIf_visit n = [plainReport n]
  \/ ~ (exists m, only_inner_if n m) /\ CollapsibleIf_visit n = [].
Proof.
  unfold CollapsibleIf_visit. destruct (n_shape n) eqn:E;
    try (right; split; [intros (m & p & c & t & K & _); congruence|reflexivity]).
  destruct elseS as [e|].
  - right. split; [intros (m & p & c & t & K & _); congruence|].
    destruct (getInnerIfStmt n); auto. unfold checkElseBranch, getElse. now rewrite E.
  - pose proof (inner_if n _ _ _ E) as I. destruct (getInnerIfStmt n) as [m|].
    + destruct I as [T I]. apply isIfStmt_iff in I as (p' & c' & t' & e' & M).
      unfold checkElseBranch, getElse. rewrite E, M. cbn [is_some orb].
      destruct e' as [e'|]; cbn [is_some negb].
      * right. split; auto. intros (m2 & p2 & c2 & t2 & K & T2 & p3 & c3 & t3 & M2).
        assert (t2 = thenS) by congruence. subst t2.
        destruct T as [->|T], T2 as [->|T2]; try congruence.
      * left. split; auto. exists m, pre, cond, thenS. split; auto. split; auto. eauto.
    + right. split; auto. intros (m2 & p2 & c2 & t2 & K & T2 & p3 & c3 & t3 & M2).
      assert (t2 = thenS) by congruence. subst t2.
      specialize (I m2 T2). unfold isIfStmt in I. rewrite M2 in I. discriminate.
Qed.

(** ** Dead code *)
Lemma exittype_eqb_eq a b : exittype_eqb a b = true <-> a = b.
Proof. destruct a, b; simpl; split; congruence. Qed.
Lemma firstExit_iff l : firstExit l <> NoExit <-> exists x, In x l /\ x <> NoExit.
Proof.
  induction l as [|a l IH]; simpl.
  - split; [congruence|intros (x & [] & _)].
  - destruct a; simpl.
    + rewrite IH. split; [intros (x & H & K); eauto|intros (x & [<-|H] & K); [congruence|eauto]].
    + split; [intros _; exists RestartScope; split; auto; discriminate|discriminate].
    + split; [intros _; exists ExitScope; split; auto; discriminate|discriminate].
    + split; [intros _; exists FullExit; split; auto; discriminate|discriminate].
Qed.
Lemma bothExit_iff a b : bothExit a b <> NoExit <-> a <> NoExit /\ b <> NoExit.
Proof. destruct a, b; cbv; intuition congruence. Qed.
Lemma exitType_iff n : exitType n <> NoExit <-> always_jumps n.
Proof.
  assert (J : forall n, jump_statement n -> always_jumps n) by (intros; now apply aj_jump).
  assert (NJ : forall n, ~ jump_statement n -> (forall v m, n_shape n <> CaseStmt v m) ->
     (forall m, n_shape n <> DefaultStmt m) -> (forall l, n_shape n <> CompoundStmt l) ->
     (forall p c t e, n_shape n <> IfStmt p c t (Some e)) -> ~ always_jumps n).
  { intros x A B C D F K. inversion K; subst; [now apply A|eapply B; eassumption|eapply C; eassumption|eapply D; eassumption|eapply F; eassumption]. }
  induction n as [n IH] using node_ind'. destruct n as [i ty s]. destruct s; cbn [exitType];
    try (split; [intros H; congruence|intros H; exfalso; revert H; apply NJ; cbn [n_shape]; try discriminate;
      intros [K|[K|[(? & K)|[(? & K)|[(? & K)|(? & K)]]]]]; discriminate K]; fail);
    try (split; [intros _; apply J; unfold jump_statement; cbn [n_shape]; eauto 8|discriminate]; fail).
  - (* block *)
    rewrite firstExit_iff. split.
    + intros (x & Hx & K). apply in_map_iff in Hx as (m & <- & Hm).
      eapply aj_block; [reflexivity|exact Hm|]. apply IH; auto.
    + intros K. inversion K; subst; cbn [n_shape] in *; try congruence.
      * destruct H as [H|[H|[(? & H)|[(? & H)|[(? & H)|(? & H)]]]]]; discriminate H.
      * injection H as <-. exists (exitType m). split; [now apply in_map|]. apply IH; auto.
  - (* if *)
    destruct elseS as [e|]; cbn [exitType].
    + rewrite bothExit_iff. rewrite (IH thenS) by inkids. rewrite (IH e) by inkids. split.
      * intros [A B]. eapply aj_if; [reflexivity|exact A|exact B].
      * intros K. inversion K; subst; cbn [n_shape] in *; try congruence.
        -- destruct H as [H|[H|[(? & H)|[(? & H)|[(? & H)|(? & H)]]]]]; discriminate H.
        -- injection H as <- <- <- <-. auto.
    + split; [congruence|intros H; exfalso; revert H; apply NJ; cbn [n_shape]; try discriminate;
      intros [K|[K|[(? & K)|[(? & K)|[(? & K)|(? & K)]]]]]; discriminate K].
  - rewrite (IH sub) by inkids. split.
    + intros A. eapply aj_case; [reflexivity|exact A].
    + intros K. inversion K; subst; cbn [n_shape] in *; try congruence.
      * destruct H as [H|[H|[(? & H)|[(? & H)|[(? & H)|(? & H)]]]]]; discriminate H.
  - rewrite (IH sub) by inkids. split.
    + intros A. eapply aj_default; [reflexivity|exact A].
    + intros K. inversion K; subst; cbn [n_shape] in *; try congruence.
      * destruct H as [H|[H|[(? & H)|[(? & H)|[(? & H)|(? & H)]]]]]; discriminate H.
Qed.

Lemma label_iff n : isAnyLabelStmt n = true <-> labelled_statement n.
Proof.
  unfold isAnyLabelStmt, labelled_statement. destruct (n_shape n); split; intros H; try discriminate H; try reflexivity;
    try (repeat match goal with
    | K : _ \/ _ |- _ => destruct K as [K|K]
    | K : exists _, _ |- _ => destruct K as [? K]
    end; discriminate).
  - left. do 2 eexists; reflexivity.
  - right. left. eexists; reflexivity.
  - right. right. do 2 eexists; reflexivity.
Qed.
Lemma isAnyReturn_iff n : isAnyReturnStmt n = true <-> always_jumps n.
Proof.
  rewrite <- exitType_iff. unfold isAnyReturnStmt. rewrite negb_true_iff.
  destruct (exitType n); cbn; split; congruence.
Qed.
Lemma deadCode_spec l : forall b,
  (deadCode_loop l b = [] /\ (forall i p r, ~ follows_jump l i p r)
     /\ (b = true -> forall r, nth_error l 0 = Some r -> labelled_statement r))
  \/ (exists r, b = true /\ nth_error l 0 = Some r /\ ~ labelled_statement r /\ deadCode_loop l b = [plainReport r])
  \/ (exists i p r, follows_jump l i p r /\ (forall j q x, j < i -> ~ follows_jump l j q x)
      /\ (b = true -> forall r, nth_error l 0 = Some r -> labelled_statement r)
      /\ deadCode_loop l b = [plainReport r]).
Proof.
  induction l as [|a l IH]; intros b.
  - left. split; auto. split; [intros [|i] p r (H & _); discriminate|intros _ r H; discriminate].
  - cbn [deadCode_loop]. destruct (b && negb (isAnyLabelStmt a)) eqn:E.
    + apply andb_true_iff in E as [-> E]. apply negb_true_iff in E. right. left. exists a.
      split; [reflexivity|]. split; [reflexivity|]. split; [|reflexivity].
      intros K. apply label_iff in K. congruence.
    + assert (B : b = true -> forall r, nth_error (a :: l) 0 = Some r -> labelled_statement r).
      { intros -> r [= <-]. cbn in E. apply negb_false_iff in E. now apply label_iff. }
      destruct (IH (isAnyReturnStmt a)) as [(D & N & L)|[(r & R & Hr & NL & D)|(i & p & r & F & M & L & D)]].
      * left. split; auto. split; auto. intros [|i] p r (H1 & H2 & H3 & H4).
        -- cbn in H1, H2. injection H1 as ->. apply H4. apply L; [now apply isAnyReturn_iff|].
           destruct l; auto.
        -- apply (N i p r). unfold follows_jump. auto.
      * right. right. exists 0, a, r. split; [|split; [intros; lia|split; [exact B|exact D]]].
        split; [reflexivity|]. split; [exact Hr|]. split; [now apply isAnyReturn_iff|exact NL].
      * right. right. exists (S i), p, r. split; [exact F|]. split; [|split; [exact B|exact D]].
        intros [|j] q x Hj (H1 & H2 & H3 & H4).
        -- cbn in H1, H2. injection H1 as ->. apply H4. apply L; [now apply isAnyReturn_iff|].
           destruct l; auto.
        -- apply (M j q x); [lia|]. unfold follows_jump. auto.
Qed.

(** ** Negations *)
Lemma skipParens_spec n : parenthesised n (skipParens n) /\ forall m, n_shape (skipParens n) <> ParenExpr m.
Proof.
  induction n as [n IH] using node_ind'. destruct n as [i ty s].
  destruct s; try (split; [apply pa_self|discriminate]).
  cbn [skipParens]. destruct (IH sub) as [A B]; [inkids|]. split; auto. eapply pa_paren; eauto. reflexivity.
Qed.
Lemma parenthesised_skip n e : parenthesised n e -> (forall m, n_shape e <> ParenExpr m) -> e = skipParens n.
Proof.
  induction 1; intros N.
  - destruct e as [i ty s]. destruct s; try reflexivity. exfalso. eapply N. reflexivity.
  - destruct n as [i ty s]. cbn in H. subst s. cbn [skipParens]. auto.
Qed.
Lemma unop_eqb_eq a b : unop_eqb a b = true <-> a = b.
Proof. unfold unop_eqb. destruct (unop_eq_dec a b); split; congruence. Qed.
Lemma unary_node (ok : unop -> unop -> Prop) (okb : unop -> unop -> bool) (f : node -> list report) n :
  (forall o i, okb o i = true <-> ok o i) ->
  f n = match n_shape n with
        | UnaryOperator o sub =>
            match n_shape (skipParens sub) with
            | UnaryOperator i _ => if okb o i then [plainReport n] else []
            | _ => []
            end
        | _ => []
        end ->
  unary_of_unary ok n /\ f n = [plainReport n] \/ ~ unary_of_unary ok n /\ f n = [].
Proof.
  intros Hok Hf. rewrite Hf. clear Hf f. destruct (n_shape n) eqn:E;
    try (right; split; [intros (? & ? & ? & ? & K & _); congruence|reflexivity]).
  destruct (skipParens_spec sub) as [P NP].
  assert (U : forall o' sub' i e x, n_shape n = UnaryOperator o' sub' -> parenthesised sub' e ->
     n_shape e = UnaryOperator i x -> e = skipParens sub).
  { intros o' sub' i e x K Q R. rewrite E in K. injection K as <- <-. apply parenthesised_skip; auto. congruence. }
  destruct (n_shape (skipParens sub)) eqn:F;
    try (right; split; [intros (o' & sub' & i & e & K & Q & (x & R) & _);
      pose proof (U _ _ _ _ _ K Q R); congruence|reflexivity]).
  destruct (okb op op0) eqn:O.
  - left. split; auto. exists op, sub, op0, (skipParens sub). split; auto. split; auto. split; [eauto|]. now apply Hok.
  - right. split; auto. intros (o' & sub' & i & e & K & Q & (x & R) & OK).
    pose proof (U _ _ _ _ _ K Q R). subst e. rewrite E in K. injection K as <- <-.
    rewrite F in R. injection R as <- <-. apply Hok in OK. congruence.
Qed.

(** ** Others *)
Lemma bitwise_iff n : isBitwise n = true <-> bitwise_operator n.
Proof.
  unfold isBitwise, bitwise_operator. destruct (n_shape n); split; intros H; try discriminate;
    try (destruct H as (? & ? & ? & H & _); discriminate).
  - destruct op; try discriminate; eexists _, _, _; split; eauto.
  - destruct H as (o & l & r & [= <- <- <-] & [->|[->| ->]]); reflexivity.
Qed.
Lemma bitwise_check c :
  (isBitwise c || existsb (found isBitwise) (children (n_shape c))) = true
  <-> exists m, below c m /\ bitwise_operator m.
Proof.
  rewrite orb_true_iff, bitwise_iff, existsb_exists. split.
  - intros [H|(x & Hx & H)].
    + exists c. split; [apply below_self|exact H].
    + apply found_iff in H as (m & Hb & H). apply bitwise_iff in H. exists m. split; auto.
      eapply below_child; eauto.
  - intros (m & Hb & H). inversion Hb as [|? x ? Hx Hm]; subst; auto.
    right. exists x. split; auto. apply found_iff. exists m. split; auto. now apply bitwise_iff.
Qed.
Lemma bitwise_node n :
  (exists c, (condition_of n c /\ exists m, below c m /\ bitwise_operator m)
      /\ BitwiseOperatorInConditional_visit n = [Report c []])
  \/ ((forall c, ~ (condition_of n c /\ exists m, below c m /\ bitwise_operator m))
      /\ BitwiseOperatorInConditional_visit n = []).
Proof.
  unfold BitwiseOperatorInConditional_visit.
  assert (X : forall c, condition_of n c -> (forall c', condition_of n c' -> c' = c) ->
     let check cond := if isBitwise cond || existsb (found isBitwise) (children (n_shape cond))
                    then [plainReport cond] else [] in
     (exists c0, (condition_of n c0 /\ exists m, below c0 m /\ bitwise_operator m) /\ check c = [Report c0 []])
     \/ ((forall c0, ~ (condition_of n c0 /\ exists m, below c0 m /\ bitwise_operator m)) /\ check c = [])).
  { intros c Hc U. cbv beta zeta. pose proof (bitwise_check c) as B.
    destruct (isBitwise c || existsb (found isBitwise) (children (n_shape c))).
    - left. exists c. split; [|reflexivity]. split; auto. now apply B.
    - right. split; auto. intros c0 [K1 K2]. apply U in K1. subst. apply B in K2. discriminate. }
  destruct (n_shape n) eqn:E;
    try (right; split; [intros c0 [K _]; inversion K; congruence|reflexivity]);
    (apply X; [first [eapply co_if; exact E|eapply co_while; exact E|eapply co_do; exact E|eapply co_choice; exact E]
              |intros c' K; inversion K; congruence]).
Qed.

Lemma isIntegerLiteral_iff n v : isIntegerLiteral n v = true <-> int_literal n v.
Proof.
  unfold isIntegerLiteral, int_literal. destruct (n_shape n); split; intros H; try discriminate.
  - apply Z.eqb_eq in H. congruence.
  - injection H as ->. apply Z.eqb_refl.
Qed.
Lemma remainder_iff n : isRemainderWhenDevidingByTwo n = true
  <-> exists e two, n_shape n = BinaryOperator BO_Rem e two /\ int_literal two 2.
Proof.
  unfold isRemainderWhenDevidingByTwo. destruct (n_shape n); split; intros H; try discriminate;
    try (destruct H as (? & ? & H & _); discriminate).
  - destruct op; try discriminate. apply isIntegerLiteral_iff in H. eauto.
  - destruct H as (e & two & [= -> -> ->] & H). now apply isIntegerLiteral_iff.
Qed.
Lemma oddness_node n : oddness_check n /\ BrokenOddnessCheck_visit n = [plainReport n]
  \/ ~ oddness_check n /\ BrokenOddnessCheck_visit n = [].
Proof.
  unfold BrokenOddnessCheck_visit, oddness_check. destruct (n_shape n) eqn:E;
    try (right; split; [intros (? & ? & K & _); discriminate|reflexivity]).
  destruct op; try (right; split; [intros (? & ? & K & _); discriminate|reflexivity]).
  assert (I : isRemainderEqualsOne lhs rhs = true <->
    ((int_literal rhs 1 /\ exists e two, n_shape lhs = BinaryOperator BO_Rem e two /\ int_literal two 2)
      \/ (int_literal lhs 1 /\ exists e two, n_shape rhs = BinaryOperator BO_Rem e two /\ int_literal two 2))).
  { unfold isRemainderEqualsOne. rewrite orb_true_iff, !andb_true_iff, !isIntegerLiteral_iff, !remainder_iff. reflexivity. }
  destruct (isRemainderEqualsOne lhs rhs).
  - left. split; auto. exists lhs, rhs. split; auto. now apply I.
  - right. split; auto. intros (l & r & [= <- <-] & K). apply I in K. discriminate.
Qed.
Lemma while_like_node n : while_like n /\ ForLoopShouldBeWhile_visit n = [plainReport n]
  \/ ~ while_like n /\ ForLoopShouldBeWhile_visit n = [].
Proof.
  unfold ForLoopShouldBeWhile_visit, while_like. destruct (n_shape n) eqn:E;
    try (right; split; [intros (? & ? & ? & K & _); discriminate|reflexivity]).
  destruct init; [right; split; [intros (? & ? & ? & K & _); discriminate|reflexivity]|].
  destruct cond as [c|]; [|right; split; [intros (? & ? & ? & K & _); discriminate|reflexivity]].
  destruct inc; [right; split; [intros (? & ? & ? & K & _); discriminate|reflexivity]|].
  assert (D : n_shape c = NullStmt \/ n_shape c <> NullStmt) by (destruct (n_shape c); auto; right; discriminate).
  destruct D as [D|D].
  - right. rewrite D. split; auto. intros (? & ? & ? & [= <- <- <-] & K). auto.
  - left. split; [eauto 8|]. destruct (n_shape c); congruence.
Qed.
Lemma isForStmt_iff n : isForStmt n = true <-> exists i p c s b, n_shape n = ForStmt i p c s b.
Proof.
  unfold isForStmt. destruct (n_shape n); split; intros H; try discriminate;
    try (destruct H as (? & ? & ? & ? & ? & H); discriminate); try reflexivity.
  do 5 eexists. reflexivity.
Qed.
Lemma jumbled_node n :
  (exists m, jumbled n m /\ JumbledIncrementer_visit n = [Report m []])
  \/ ((forall m, ~ jumbled n m) /\ JumbledIncrementer_visit n = []).
Proof.
  unfold JumbledIncrementer_visit. destruct (n_shape n) eqn:E;
    try (right; split; [intros m (? & ? & ? & ? & ? & ? & ? & ? & K & _); congruence|reflexivity]).
  cbv zeta.
  set (inner := if isForStmt body then Some body
        else match n_shape body with
             | CompoundStmt [s] => if isForStmt s then Some s else None
             | _ => None
             end).
  assert (IN : forall f, inner = Some f <-> ((body = f \/ n_shape body = CompoundStmt [f]) /\ isForStmt f = true)).
  { intros f. unfold inner. destruct (isForStmt body) eqn:Fb.
    - split; [intros [= <-]; auto|]. intros [[->|K] Hf]; auto. unfold isForStmt in Fb. rewrite K in Fb. discriminate.
    - destruct (n_shape body) eqn:Sb; try (split; [discriminate|intros [[->|K] Hf]; congruence]).
      destruct body0 as [|x [|y l]]; try (split; [discriminate|intros [[->|K] Hf]; congruence]).
      destruct (isForStmt x) eqn:Fx; split.
      + intros [= <-]. auto.
      + intros [[->|[= ->]] Hf]; congruence.
      + discriminate.
      + intros [[->|[= ->]] Hf]; congruence. }
  destruct inner as [f|] eqn:Ein.
  - destruct (IN f) as [IN1 _]. destruct (IN1 eq_refl) as [Hb Hf].
    apply isForStmt_iff in Hf as (i' & p' & c' & s' & b' & Ef). rewrite Ef.
    assert (UF : forall f2, (body = f2 \/ n_shape body = CompoundStmt [f2]) -> isForStmt f2 = true -> f2 = f).
    { intros f2 K1 K2. assert (Some f = Some f2) by (apply IN; auto). congruence. }
    destruct s' as [inc'|].
    + unfold isInnerIncMatchingOuterInit.
      assert (V : forall v, varDeclFromInitStmt init = Some v <-> exists i d vi ini, init = Some i /\ n_shape i = DeclStmt [d]
          /\ n_shape d = VarDecl vi ini /\ v = n_id d).
      { intros v. unfold varDeclFromInitStmt. destruct init as [i|]; [|split; [discriminate|intros (? & ? & ? & ? & K & _); discriminate]].
        destruct (n_shape i) eqn:Ei; try (split; [discriminate|intros (? & ? & ? & ? & [= <-] & K & _); congruence]).
        destruct decls as [|d [|d2 l]]; try (split; [discriminate|intros (? & ? & ? & ? & [= <-] & K & _); congruence]).
        destruct (n_shape d) eqn:Ed; try (split; [discriminate|intros (? & ? & ? & ? & [= <-] & K & K2 & _); congruence]).
        split; [intros [= <-]; eauto 10|]. intros (i2 & d2 & vi & ini & [= <-] & K & K2 & ->). congruence. }
      assert (W : forall v, valueDeclFromIncExpr (Some inc') = Some v <-> exists o e name en, n_shape inc' = UnaryOperator o e
          /\ n_shape e = DeclRefExpr v name en).
      { intros v. unfold valueDeclFromIncExpr. destruct (n_shape inc') eqn:Ei;
          try (split; [discriminate|intros (? & ? & ? & ? & K & _); congruence]).
        destruct (n_shape sub) eqn:Es; try (split; [discriminate|intros (? & ? & ? & ? & K & K2); congruence]).
        split; [intros [= <-]; eauto 8|]. intros (o2 & e2 & nm & en & [= <- <-] & K). congruence. }
      assert (C : forall m, jumbled n m -> m = inc' /\ exists v, varDeclFromInitStmt init = Some v /\ valueDeclFromIncExpr (Some inc') = Some v).
      { intros m (i & p & c & s & b & d & vi & ini & K1 & K2 & K3 & f2 & i2 & p2 & c2 & b2 & K4 & K5 & K6).
        rewrite E in K1. injection K1 as -> -> -> -> ->.
        assert (f2 = f) as -> by (apply UF; auto; apply isForStmt_iff; eauto 8).
        rewrite Ef in K5. injection K5 as -> -> -> -> ->. split; auto.
        exists (n_id d). split; [apply V; eauto 10|now apply W]. }
      destruct (varDeclFromInitStmt init) as [v|] eqn:Ev.
      * destruct (valueDeclFromIncExpr (Some inc')) as [w|] eqn:Ew.
        -- destruct (v =? w) eqn:Evw.
           ++ apply Nat.eqb_eq in Evw. subst w. left. exists inc'. split; [|reflexivity].
              destruct (V v) as [V1 _]. destruct (V1 eq_refl) as (i & d & vi & ini & Hi & Hd & Hv & ->).
              destruct (W (n_id d)) as [W1 _]. destruct (W1 eq_refl) as (o & e & nm & en & Hw).
              subst init. exists i, pre, cond, inc, body, d, vi, ini. split; auto. split; auto. split; auto.
              exists f, i', p', c', b'. split; [exact Hb|]. split; [exact Ef|]. exists o, e, nm, en. exact Hw.
           ++ right. split; auto. intros m K. apply C in K as (-> & x & [= <-] & [= <-]). rewrite Nat.eqb_refl in Evw. discriminate.
        -- right. split; auto. intros m K. apply C in K as (-> & x & _ & [=]).
      * right. split; auto. intros m K. apply C in K as (-> & x & [=] & _).
    + right. split; auto. intros m (i & p & c & s & b & d & vi & ini & K1 & K2 & K3 & f2 & i2 & p2 & c2 & b2 & K4 & K5 & K6).
      rewrite E in K1. injection K1 as -> -> -> -> ->.
      assert (f2 = f) as -> by (apply UF; auto; apply isForStmt_iff; eauto 8). congruence.
  - right. split; auto. intros m (i & p & c & s & b & d & vi & ini & K1 & K2 & K3 & f2 & i2 & p2 & c2 & b2 & K4 & K5 & K6).
    rewrite E in K1. injection K1 as -> -> -> -> ->.
    assert (None = Some f2) by (apply IN; split; auto; apply isForStmt_iff; eauto 8). discriminate.
Qed.

Lemma collect_where (P : node -> Prop) (f : node -> list node) n :
  (forall m, P m /\ f m = [m] \/ ~ P m /\ f m = []) -> sublist_where P (nodes n) (collect f n).
Proof.
  intros H. rewrite collect_nodes. induction (nodes n) as [|a l IH]; [constructor|].
  cbn [flat_map]. destruct (H a) as [[A E]|[A E]]; rewrite E; now constructor.
Qed.
Lemma collect_returns n : sublist_where is_return (nodes n) (collect (fun m => match n_shape m with ReturnStmt _ => [m] | _ => [] end) n).
Proof.
  apply collect_where. intros m. unfold is_return. destruct (n_shape m);
    try (right; split; [intros [? K]; discriminate|reflexivity]). left. eauto.
Qed.
Lemma collect_throws n : sublist_where is_objc_throw (nodes n) (collect (fun m => match n_shape m with ObjCAtThrowStmt _ => [m] | _ => [] end) n).
Proof.
  apply collect_where. intros m. unfold is_objc_throw. destruct (n_shape m);
    try (right; split; [intros [? K]; discriminate|reflexivity]). left. eauto.
Qed.
Lemma raiser_iff n : isExceptionRaiser n = true <-> raises n.
Proof.
  unfold isExceptionRaiser, raises. destruct (n_shape n); split; intros H; try discriminate;
    try (destruct H as (? & ? & ? & K & _); discriminate).
  - apply andb_true_iff in H as [H1 H2]. apply existsb_exists in H1 as (x & Hx & H1). apply str_eqb_eq in H1.
    destruct (ms_interface info) eqn:I; [|discriminate]. apply str_eqb_eq in H2.
    eexists _, _, _. split; [reflexivity|]. rewrite H1. split; [congruence|exact Hx].
  - destruct H as (m & r & a & [= <- <- <-] & I & K). apply andb_true_iff. split.
    + apply existsb_exists. exists (ms_selector info). split; auto. apply str_eqb_refl.
    + rewrite I. apply str_eqb_refl.
Qed.
Lemma collect_raisers n : sublist_where raises (nodes n) (collect (fun m => if isExceptionRaiser m then [m] else []) n).
Proof.
  apply collect_where. intros m. pose proof (raiser_iff m) as R. destruct (isExceptionRaiser m).
  - left. split; auto. now apply R.
  - right. split; auto. intros K. apply R in K. discriminate.
Qed.
