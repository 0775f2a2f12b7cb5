(** * C60: unnecessary else; C61: redundant if and conditional; C88: redundant local variable;
      C89: useless parentheses; C90: null check before delete *)
From Verif Require Import Base BaseFacts ModelConfig ModelAST ModelRules ModelRulesBasic ModelRulesRedundant SpecFilter SpecAST
  SpecRules SpecExec SpecRulesBasic SpecRulesRedundant ProofAST ProofRules ProofExec ProofExecSeq ProofRulesBasic
  ProofRulesRedundant PropAST PropRulesBasic.
Local Arguments lit : simpl never.

(** ** C60 *)
(** Per chain of ifs that starts anywhere in the unit and whose branches all return, its else,
    in source order and once. *)
Theorem c60_exactly_unneeded : forall roots, distinct_nodes roots ->
  exists sel, sublist_where (fun n => exists e, else_unneeded roots n e) (all_nodes roots) sel
    /\ Forall2 (fun n r => exists e, else_unneeded roots n e /\ r = Report e []) sel (UnnecessaryElseRule roots).
Proof.
  intros roots D. unfold UnnecessaryElseRule, reports_stateful. rewrite stateful_nodes.
  destruct (else_run roots D (all_nodes roots) [] [] []) as (sel & S & ->); [reflexivity| |].
  { intros i. split; [intros []|]. intros (m & k & [] & _). }
  cbn [app]. clear D. induction S as [|n l sel SC S IH|n l sel NS S IH].
  - exists []. split; constructor.
  - destruct IH as (sel' & S' & F). cbn [flat_map]. pose proof SC as [A _].
    destruct (else_report_spec n A) as [(ts & e & C & R & ->)|[N ->]].
    + exists (n :: sel'). assert (U : else_unneeded roots n e) by (split; eauto).
      split; [constructor; eauto|]. cbn. constructor; eauto.
    + exists sel'. split; [|exact F]. constructor; auto. intros (e & _ & ts & C & R). apply N. eauto.
  - destruct IH as (sel' & S' & F). exists sel'. split; [|exact F]. constructor; auto. intros (e & U & _). auto.
Qed.
Theorem c60_one_per_chain : forall roots n e e', else_unneeded roots n e -> else_unneeded roots n e' -> e = e'.
Proof. intros roots n e e' (_ & ts & C & _) (_ & ts' & C' & _). now destruct (chain_det _ _ _ C _ _ C'). Qed.
(** Putting the statement of the else behind the chain keeps the behaviour, unless a branch has
    a label. *)
Theorem c60_removing_else_preserves : forall st (atom : node -> st -> value -> st -> Prop) select b b' l r roots n n' e,
  else_unneeded roots n e -> (forall ts t en, chain n ts e -> In t ts -> ~ inside en t) ->
  without_else n n' e ->
  n_shape b = CompoundStmt (l ++ n :: r) -> n_shape b' = CompoundStmt (l ++ n' :: e :: r) ->
  equivalent atom select b b'.
Proof.
  intros st atom select b b' l r roots n n' e (_ & ts & C & R) L W Eb Eb'.
  eapply else_exchange; eauto. eapply without_guards; eauto.
  apply Forall_forall. intros t Ht. split; [eapply Forall_forall in R; eauto|]. intros en. eapply L; eauto.
Qed.
(** Finding: behind a return there can be a label; a jump to it used to skip the else. *)
Definition ex_labelled (e : option node) : node :=
  nd 1 (IfStmt [] (var 2) (nd 3 (CompoundStmt [nd 4 (ReturnStmt None); nd 5 (LabelStmt $"l" (nd 6 NullStmt))])) e).
Theorem c60_label_refuted : exists b n n' e b', UnnecessaryElseRule [b] = [Report e []] /\ without_else n n' e
  /\ n_shape b = CompoundStmt [n] /\ n_shape b' = CompoundStmt [n'; e]
  /\ exists (atom : node -> nat -> value -> nat -> Prop), forall select, ~ equivalent atom select b b'.
Proof.
  exists (nd 8 (CompoundStmt [ex_labelled (Some (var 7))])), (ex_labelled (Some (var 7))), (ex_labelled None), (var 7),
    (nd 8 (CompoundStmt [ex_labelled None; var 7])).
  split; [reflexivity|]. split; [eapply we_last; try reflexivity; intros (? & ? & ? & ? & [=])|]. split; [reflexivity|]. split; [reflexivity|].
  exists (fun _ s v s' => v = Truth true /\ s' = S s). intros select H.
  assert (I : inside (AtLabel $"l") (nd 3 (CompoundStmt [nd 4 (ReturnStmt None); nd 5 (LabelStmt $"l" (nd 6 NullStmt))]))).
  { apply in_sub with (m := nd 5 (LabelStmt $"l" (nd 6 NullStmt))); [right; left; reflexivity|intros i [=]|].
    eapply in_label; reflexivity. }
  destruct (H (AtLabel $"l") 0 Normal 0) as [X _]. destruct X as [tr X].
  - eexists. eapply x_compound; [reflexivity|]. eapply xs_enter; [| |apply xs_nil].
    + eapply in_sub; [left; reflexivity|intros i [=]|exact I].
    + eapply x_if_into_then; [reflexivity|exact I|]. eapply x_compound; [reflexivity|]. eapply xs_skip; [discriminate| |].
      * intros K. inversion K; subst; try discriminate. match goal with X : In _ (enterable _) |- _ => destruct X end.
      * eapply xs_enter; [eapply in_label; reflexivity| |apply xs_nil]. eapply x_label_here; [reflexivity|]. now apply x_null.
  - assert (Y : does (fun _ s v s' => v = Truth true /\ s' = S s) select (nd 8 (CompoundStmt [ex_labelled None; var 7])) (AtLabel $"l") 0 Normal 0)
      by now exists tr.
    apply (does_compound _ select (nd 8 (CompoundStmt [ex_labelled None; var 7])) [ex_labelled None; var 7] _ _ _ _ eq_refl) in Y as [[[=] _]|Y].
    assert (Z : forall en s, ~ dl (fun _ s v s' => v = Truth true /\ s' = S s) select [var 7] en s Normal 0).
    { intros en s K. apply dl_one in K as [_ [t K]]. inversion K; subst; try discriminate;
        try (match goal with X : eval _ _ _ _ _ |- _ => inversion X; subst end; try discriminate;
             match goal with X : _ /\ _ |- _ => destruct X as [-> ?]; discriminate end). }
    apply dl_cons in Y as [[[=] _]|[(_ & _ & Y)|[_ [(s1 & _ & Y)|(a & [=] & _)]]]]; eapply Z; eauto.
Qed.
Definition ex_chain (e : option node) : node :=
  nd 1 (IfStmt [] (var 2) (nd 3 (ReturnStmt None)) (Some
    (nd 4 (IfStmt [] (var 5) (nd 6 (CompoundStmt [var 7; nd 8 (ReturnStmt (Some (var 9)))])) e)))).
Example c60_case : distinct_nodes [ex_chain (Some (var 10))] /\ else_unneeded [ex_chain (Some (var 10))] (ex_chain (Some (var 10))) (var 10)
  /\ UnnecessaryElseRule [ex_chain (Some (var 10))] = [Report (var 10) []].
Proof.
  split; [|split; [|reflexivity]].
  - unfold distinct_nodes. cbn. repeat (constructor; [cbn; intuition discriminate|]). constructor.
  - split.
    + split; [do 4 eexists; reflexivity|]. intros root m p c t [<-|[]] B E.
      assert (K : In m (nodes (ex_chain (Some (var 10))))) by now apply in_nodes.
      cbn in K. repeat (destruct K as [<-|K]; [discriminate|]). destruct K.
    + exists [nd 3 (ReturnStmt None); nd 6 (CompoundStmt [var 7; nd 8 (ReturnStmt (Some (var 9)))])]. split.
      * eapply ch_more; [reflexivity|]. eapply ch_last; [reflexivity|]. intros (? & ? & ? & ? & [=]).
      * repeat constructor; [eapply ar_return; reflexivity|]. eapply ar_block; [reflexivity|right; left; reflexivity|].
        eapply ar_return. reflexivity.
Qed.
Example c60_case_without : without_else (ex_chain (Some (var 10))) (ex_chain None) (var 10).
Proof.
  eapply we_more; [reflexivity| |reflexivity]. eapply we_last; try reflexivity. intros (? & ? & ? & ? & [=]).
Qed.

(** ** C61 *)
Theorem c61_if_exactly : forall root,
  reports_exactly redundant_if (fun n => Report n []) root (reports RedundantIf_visit root).
Proof. intros. apply reports_exactly_intro. intros n. apply (redundant_if_node n). Qed.
Theorem c61_choice_exactly : forall root,
  reports_exactly redundant_choice (fun n => Report n []) root (reports RedundantConditional_visit root).
Proof. intros. apply reports_exactly_intro. intros n. apply (choice_node n). Qed.
(** Exchanging the branches makes no difference to what is reported. *)
Theorem c61_if_symmetric : forall n n' p c t e p' c', n_shape n = IfStmt p c t (Some e) -> n_shape n' = IfStmt p' c' e (Some t) ->
  (redundant_if n <-> redundant_if n').
Proof.
  assert (S : forall n n' p c t e p' c', n_shape n = IfStmt p c t (Some e) -> n_shape n' = IfStmt p' c' e (Some t) ->
    redundant_if n -> redundant_if n').
  { intros n n' p c t e p' c' E E' (p0 & c0 & t0 & e0 & E0 & t1 & e1 & a & b & T & L & O & R).
    rewrite E in E0. injection E0 as <- <- <- <-. exists p', c', e, t. split; auto. exists e1, t1, b, a.
    split; auto. split; auto. split; [now apply opposite_sym|]. tauto. }
  intros. split; eapply S; eauto.
Qed.
Theorem c61_choice_symmetric : forall n n' c c' t f, n_shape n = ConditionalOperator c t f -> n_shape n' = ConditionalOperator c' f t ->
  (redundant_choice n <-> redundant_choice n').
Proof.
  assert (S : forall n n' c c' t f, n_shape n = ConditionalOperator c t f -> n_shape n' = ConditionalOperator c' f t ->
    redundant_choice n -> redundant_choice n').
  { intros n n' c c' t f E E' (c0 & t0 & f0 & E0 & R). rewrite E in E0. injection E0 as <- <- <-.
    exists c', f, t. split; auto. destruct R as [R|[R|R]]; eauto using operand_sym, opposite_sym, opposite_kind, same_constant_sym, same_variable_sym. }
  intros. split; eapply S; eauto.
Qed.
(** Literals evaluate to themselves. *)
Definition constant {st} (atom : node -> st -> value -> st -> Prop) (e : node) (b : bool) : Prop :=
  forall s v s', eval atom e s v s' <-> s' = s /\ (v = Truth b \/ v = Fails ACut).
(** An if that returns opposite truth values comes to returning its condition, or the negated one. *)
Theorem c61_if_is_its_condition : forall st (atom : node -> st -> value -> st -> Prop) select n c t e t' e' x y b k v,
  n_shape n = IfStmt [] c t (Some e) -> only_statement t t' -> only_statement e e' -> returns t' x -> returns e' y ->
  constant atom x b -> constant atom y (negb b) ->
  returns k v -> (if b then v = c else n_shape v = UnaryOperator UO_LNot c) ->
  forall en s o s', o <> Abrupt ACut -> (does atom select n en s o s' <-> does atom select k en s o s').
Proof.
  intros st atom select n c t e t' e' x y b k v En Ot Oe Rt Re Cx Cy Rk V en s o s' NC.
  assert (V' : forall s1 w s2, eval atom v s1 w s2 <-> exists u, eval atom c s1 u s2
     /\ w = match u with Truth z => Truth (if z then b else negb b) | Fails a => Fails a end).
  { intros. destruct b.
    - subst v. split; [intros H; exists w; split; auto; destruct w as [[]|]; reflexivity|].
      intros ([[]|a] & H & ->); auto.
    - rewrite (eval_not atom v c s1 w s2 V). split; intros ([[]|a] & H & ->); eexists; split; eauto. }
  destruct (match en with Start => true | _ => false end) eqn:B.
  - destruct en; try discriminate. rewrite (does_if atom select n _ _ _ _ _ _ _ En), (does_return atom select k v s o s' Rk).
    setoid_rewrite head_nil. setoid_rewrite (fun s o s' => only_does_return atom select t t' x s o s' Ot Rt).
    setoid_rewrite (fun s o s' => only_does_return atom select e e' y s o s' Oe Re). unfold constant in Cx, Cy.
    setoid_rewrite Cx. setoid_rewrite Cy. setoid_rewrite V'. split.
    + intros [(a & -> & H)|[(s1 & H & [(-> & ->)|[(w & [-> [[= ->]|[=]]] & ->)|(a & [-> [[=]|[= ->]]] & ->)]])
        |(s1 & H & [(-> & ->)|[(w & [-> [[= ->]|[=]]] & ->)|(a & [-> [[=]|[= ->]]] & ->)]])]]; try congruence.
      * right. right. exists a. split; auto. exists (Fails a). auto.
      * right. left. exists b. split; auto. exists (Truth true). auto.
      * right. left. exists (negb b). split; auto. exists (Truth false). auto.
    + intros [(-> & ->)|[(w & ([z|a] & H & [=]) & ->)|(a & ([z|a'] & H & [=]) & ->)]]; try congruence; subst.
      * destruct z; right; [left|right]; exists s'; (split; [exact H|]); right; left; eexists; (split; [split; [reflexivity|left; reflexivity]|reflexivity]).
      * left. eauto.
  - assert (D : en <> Start) by (destruct en; congruence). rewrite (does_if_into atom select n _ _ _ _ _ _ _ _ En D). split.
    + intros [[-> _]|[[I _]|(? & [= <-] & I & _)]]; [congruence| |]; exfalso; revert I; eapply only_return_inside; eauto.
    + intros [tr X]. exfalso. inversion X; subst; try congruence;
        try (unfold returns in Rk; congruence); try (unfold returns in Rk; match goal with K : isExpr k = true |- _ => unfold isExpr in K; rewrite Rk in K; discriminate end);
        try (match goal with K : loop_of k = Some _ |- _ => unfold loop_of in K; rewrite Rk in K; discriminate end).
Qed.
(** Likewise a conditional operator on opposite truth values. *)
Theorem c61_choice_is_its_condition : forall st (atom : node -> st -> value -> st -> Prop) n c t f b v,
  n_shape n = ConditionalOperator c t f -> constant atom t b -> constant atom f (negb b) ->
  (if b then v = c else n_shape v = UnaryOperator UO_LNot c) ->
  forall s w s', w <> Fails ACut -> (eval atom n s w s' <-> eval atom v s w s').
Proof.
  intros st atom n c t f b v En Ct Cf V s w s' NC. rewrite (eval_choice atom n _ _ _ _ _ _ En).
  assert (X : (exists b0 s1, eval atom c s (Truth b0) s1 /\ eval atom (if b0 then t else f) s1 w s')
              <-> exists b0, eval atom c s (Truth b0) s' /\ w = Truth (if b0 then b else negb b)).
  { split.
    - intros ([] & s1 & H & K); [apply Ct in K|apply Cf in K]; destruct K as [-> [->| ->]]; try congruence; eauto.
    - intros ([] & H & ->); [exists true, s'|exists false, s']; (split; [exact H|]); [apply Ct|apply Cf]; auto. }
  rewrite X. destruct b.
  - subst v. split.
    + intros [[-> _]|[(a & -> & H)|([] & H & ->)]]; auto; congruence.
    + destruct w as [[]|a]; eauto 6.
  - rewrite (eval_not atom v c s w s' V). split.
    + intros [[-> _]|[(a & -> & H)|([] & H & ->)]]; try congruence; eexists; (split; [exact H|reflexivity]).
    + intros ([[]|a] & H & ->); eauto 6.
Qed.
(** Finding: assignments to different variables are reported too, and so is any pair of binary
    operators with opposite literals on the right. *)
Definition ex_set (i d : nat) (o : binop) (b : bool) : node :=
  nd i (BinaryOperator o (nd (i + 1) (DeclRefExpr d $"a" false)) (nd (i + 2) (CXXBoolLiteralExpr b))).
Theorem c61_unrelated_refuted : forall o o' d d', exists n t e,
  reports RedundantIf_visit n = [Report n []] /\ (exists p c, n_shape n = IfStmt p c t (Some e))
  /\ (exists l r nm x, n_shape t = BinaryOperator o l r /\ n_shape l = DeclRefExpr d nm x)
  /\ (exists l r nm x, n_shape e = BinaryOperator o' l r /\ n_shape l = DeclRefExpr d' nm x).
Proof.
  intros o o' d d'. exists (nd 1 (IfStmt [] (var 2) (ex_set 3 d o true) (Some (ex_set 6 d' o' false)))), (ex_set 3 d o true), (ex_set 6 d' o' false).
  split; [reflexivity|]. split; [do 2 eexists; reflexivity|]. split; do 4 eexists; split; reflexivity.
Qed.
(** Finding: casts of different numbers other than 0 count as the same constant. *)
Theorem c61_different_numbers_refuted : forall x y : Z, x <> 0%Z -> y <> 0%Z -> exists n c t f k i k' j,
  reports RedundantConditional_visit n = [Report n []] /\ n_shape n = ConditionalOperator c t f
  /\ implicitly t k /\ implicitly f k' /\ n_shape k = CStyleCastExpr CK_Other i /\ n_shape k' = CStyleCastExpr CK_Other j
  /\ n_shape i = IntegerLiteral x /\ n_shape j = IntegerLiteral y.
Proof.
  intros x y X Y.
  set (i := nd 5 (IntegerLiteral x)). set (j := nd 8 (IntegerLiteral y)). set (k := nd 4 (CStyleCastExpr CK_Other i)).
  set (k' := nd 7 (CStyleCastExpr CK_Other j)). set (t := nd 3 (ImplicitCastExpr CK_Other k)). set (f := nd 6 (ImplicitCastExpr CK_Other k')).
  set (n := nd 1 (ConditionalOperator (var 2) t f)).
  exists n, (var 2), t, f, k, i, k', j.
  assert (R : redundant_choice n).
  { exists (var 2), t, f. split; [reflexivity|]. right. left. apply sc_bool. eapply op_cast; [eexists; reflexivity|eexists; reflexivity|intros b [=]|].
    split; [right; right; do 4 eexists; split; reflexivity|]. exists true.
    split; (eapply bl_cast; [reflexivity|reflexivity|tauto]). }
  split; [|repeat split; try (eexists; reflexivity)].
  assert (A : RedundantConditional_visit n = [Report n []]) by (destruct (choice_node n) as [[_ ->]|[N _]]; [reflexivity|tauto]).
  rewrite reports_nodes. change (nodes n) with [n; var 2; t; k; i; f; k'; j]. cbn [flat_map]. rewrite A. reflexivity.
Qed.
Definition ex_redundant : node :=
  nd 1 (IfStmt [] (var 2) (nd 3 (CompoundStmt [nd 4 (ReturnStmt (Some (nd 5 (CXXBoolLiteralExpr false))))]))
    (Some (nd 6 (ReturnStmt (Some (nd 7 (CXXBoolLiteralExpr true))))))).
Example c61_case : redundant_if ex_redundant /\ redundant_choice (nd 1 (ConditionalOperator (var 2)
     (nd 5 (CXXBoolLiteralExpr false)) (nd 7 (CXXBoolLiteralExpr true)))).
Proof.
  assert (O : opposite_literals (nd 5 (CXXBoolLiteralExpr false)) (nd 7 (CXXBoolLiteralExpr true))).
  { split; [left; do 2 eexists; split; reflexivity|]. exists false. split; apply bl_cxx; reflexivity. }
  split.
  - do 4 eexists. split; [reflexivity|]. do 4 eexists. split; [eapply os_block; [reflexivity|apply os_self]|]. split; [apply os_self|].
    split; [exact O|]. left. split; reflexivity.
  - do 3 eexists. split; [reflexivity|]. left. eapply op_bare; [reflexivity|reflexivity|exact O].
Qed.
Example c61_case_constant : exists atom : node -> nat -> value -> nat -> Prop,
  constant atom (nd 5 (CXXBoolLiteralExpr false)) false /\ constant atom (nd 7 (CXXBoolLiteralExpr true)) true
  /\ (forall select, does atom select ex_redundant Start 3 (Abrupt (AReturn (Some true))) 3
       /\ does atom select (nd 8 (ReturnStmt (Some (nd 9 (UnaryOperator UO_LNot (var 2)))))) Start 3 (Abrupt (AReturn (Some true))) 3).
Proof.
  set (atom := fun e (s : nat) v s' => s' = s /\ v = Truth (match n_shape e with CXXBoolLiteralExpr b => b | _ => false end)).
  exists atom.
  assert (C : forall i b, constant atom (nd i (CXXBoolLiteralExpr b)) b).
  { intros i b s v s'. split.
    - inversion 1; subst; try discriminate; [|auto]. match goal with X : atom _ _ _ _ |- _ => destruct X as [-> ->] end. auto.
    - intros [-> [->| ->]]; [|apply ev_cut]. apply ev_atom; [simpl; auto|split; reflexivity]. }
  assert (K : forall select, does atom select (nd 8 (ReturnStmt (Some (nd 9 (UnaryOperator UO_LNot (var 2)))))) Start 3 (Abrupt (AReturn (Some true))) 3).
  { intros select. eexists. eapply x_return_value; [reflexivity|]. change true with (negb false). eapply ev_not; [reflexivity|].
    apply ev_atom; [simpl; auto|split; reflexivity]. }
  split; [apply C|]. split; [apply C|]. intros select. split; [|apply K].
  apply (c61_if_is_its_condition _ atom select ex_redundant (var 2) (nd 3 (CompoundStmt [nd 4 (ReturnStmt (Some (nd 5 (CXXBoolLiteralExpr false))))]))
    (nd 6 (ReturnStmt (Some (nd 7 (CXXBoolLiteralExpr true))))) (nd 4 (ReturnStmt (Some (nd 5 (CXXBoolLiteralExpr false)))))
    (nd 6 (ReturnStmt (Some (nd 7 (CXXBoolLiteralExpr true))))) (nd 5 (CXXBoolLiteralExpr false)) (nd 7 (CXXBoolLiteralExpr true)) false
    (nd 8 (ReturnStmt (Some (nd 9 (UnaryOperator UO_LNot (var 2)))))) (nd 9 (UnaryOperator UO_LNot (var 2))));
    try reflexivity; try apply C; try discriminate; try apply K.
  - eapply os_block; [reflexivity|apply os_self].
  - apply os_self.
Qed.

(** ** C88 *)
Theorem c88_exactly_redundant : forall root, reports_related declared_then_returned root (reports RedundantLocal_visit root).
Proof. intros. apply reports_related_intro. intros n. destruct (local_node n) as [H|[A B]]; auto. Qed.
(** Finding: names are compared, not declarations: returning [::a] after declaring [a] is reported. *)
Theorem c88_same_name_refuted : exists n d r, reports RedundantLocal_visit n = [Report d []]
  /\ declared_then_returned n d /\ (exists l x v nm, n_shape n = CompoundStmt (l ++ [x; r]) /\ returns r v
     /\ exists e i, implicitly v e /\ refers e i nm /\ i <> n_id d).
Proof.
  set (d := nd 1 (VarDecl (ex_vi $"a") None)). set (ret := nd 4 (ReturnStmt (Some (nd 5 (ImplicitCastExpr CK_LValueToRValue (nd 6 (DeclRefExpr 9 $"a" false))))))).
  exists (nd 2 (CompoundStmt [nd 3 (DeclStmt [d]); ret])), d, ret. split; [reflexivity|]. split.
  - exists [], (nd 3 (DeclStmt [d])), ret. do 4 eexists. split; [reflexivity|]. split; [reflexivity|]. split; [left; do 2 eexists; split; reflexivity|].
    split; [reflexivity|]. split; [eexists; reflexivity|]. eexists. reflexivity.
  - exists [], (nd 3 (DeclStmt [d])). do 2 eexists. split; [reflexivity|]. split; [reflexivity|]. do 2 eexists. split; [eexists; reflexivity|].
    split; [eexists; reflexivity|]. cbn. discriminate.
Qed.
Example c88_case : reports RedundantLocal_visit (nd 2 (CompoundStmt [var 10; nd 3 (DeclStmt [nd 1 (VarDecl (ex_vi $"a") None)]);
    nd 4 (ReturnStmt (Some (nd 5 (ImplicitCastExpr CK_LValueToRValue (nd 6 (DeclRefExpr 1 $"a" false))))))])) = [Report (nd 1 (VarDecl (ex_vi $"a") None)) []].
Proof. reflexivity. Qed.

(** ** C89 *)
Theorem c89_exactly_useless : forall root, reports_related useless_parentheses root (reports UselessParentheses_visit root).
Proof. intros. apply reports_related_intro. apply parentheses_node. Qed.
(** Without the parentheses an if or a return behaves alike. *)
Theorem c89_removing_preserves : forall st (atom : node -> st -> value -> st -> Prop) select n k e x,
  useless_parentheses n e -> n_shape e = ParenExpr x ->
  (exists p t el, n_shape n = IfStmt p e t el /\ n_shape k = IfStmt p x t el) \/ (returns n e /\ returns k x) ->
  equivalent atom select n k.
Proof.
  intros st atom select n k e x _ E [(p & t & el & En & Ek)|[Rn Rk]] en s o s'.
  - assert (H : forall s v s', head atom p (Some e) s v s' <-> head atom p (Some x) s v s').
    { intros s0 v s1. split; intros K; inversion K; subst; try (now apply hd_fails); eapply hd_cond; eauto; now apply (eval_paren atom e x). }
    destruct (match en with Start => true | _ => false end) eqn:B.
    + destruct en; try discriminate. rewrite (does_if atom select n _ _ _ _ _ _ _ En), (does_if atom select k _ _ _ _ _ _ _ Ek).
      setoid_rewrite H. reflexivity.
    + assert (D : en <> Start) by (destruct en; congruence).
      now rewrite (does_if_into atom select n _ _ _ _ _ _ _ _ En D), (does_if_into atom select k _ _ _ _ _ _ _ _ Ek D).
  - destruct (match en with Start => true | _ => false end) eqn:B.
    + destruct en; try discriminate. rewrite (does_return atom select n e s o s' Rn), (does_return atom select k x s o s' Rk).
      setoid_rewrite (eval_paren atom e x _ _ _ E). reflexivity.
    + assert (D : en <> Start) by (destruct en; congruence).
      rewrite (does_return_into atom select n e en s o s' Rn D), (does_return_into atom select k x en s o s' Rk D). reflexivity.
Qed.
Example c89_case : useless_parentheses (nd 1 (IfStmt [] (nd 2 (ParenExpr (var 3))) (nd 4 NullStmt) None)) (nd 2 (ParenExpr (var 3)))
  /\ reports UselessParentheses_visit (nd 1 (IfStmt [] (nd 2 (ParenExpr (var 3))) (nd 4 (ReturnStmt (Some (nd 5 (ParenExpr (var 6)))))) None))
     = [Report (nd 2 (ParenExpr (var 3))) []; Report (nd 5 (ParenExpr (var 6))) []]
  /\ reports UselessParentheses_visit (nd 1 (WhileStmt [] (nd 2 (ParenExpr (var 3))) (nd 4 NullStmt))) = [].
Proof. split; [|split; reflexivity]. split; [eapply we_cond; reflexivity|eexists; reflexivity]. Qed.

(** ** C90 *)
Theorem c90_exactly_guarded : forall same root,
  reports_exactly (guarded_delete same) (fun n => Report n []) root (reports (UnnecessaryNullCheck_visit same) root).
Proof. intros. apply reports_exactly_intro. intros n. apply (guarded_node same n). Qed.
(** [p != 0] and [0 != p] are treated alike. *)
Theorem c90_operand_order : forall same n n' p p' c c' l r t,
  n_shape n = IfStmt p c t None -> n_shape n' = IfStmt p' c' t None -> n_shape c = BinaryOperator BO_NE l r ->
  n_shape c' = BinaryOperator BO_NE r l -> ~ (null_pointer l /\ null_pointer r) ->
  (guarded_delete same n <-> guarded_delete same n').
Proof.
  assert (S : forall same n n' p p' c c' l r t,
    n_shape n = IfStmt p c t None -> n_shape n' = IfStmt p' c' t None -> n_shape c = BinaryOperator BO_NE l r ->
    n_shape c' = BinaryOperator BO_NE r l -> ~ (null_pointer l /\ null_pointer r) ->
    guarded_delete same n -> guarded_delete same n').
  { intros same n n' p p' c c' l r t E E' C C' N (p0 & c0 & t0 & e & E0 & T & D). rewrite E in E0. injection E0 as <- <- <-.
    exists p', c', t, e. split; auto. split; auto.
    inversion T as [? l0 r0 ? E0 NL U|? l0 r0 ? E0 NL NR U|? ? B U]; subst.
    - rewrite C in E0. injection E0 as <- <-. eapply nt_right; eauto.
    - rewrite C in E0. injection E0 as <- <-. eapply nt_left; eauto.
    - exfalso. apply B. do 3 eexists. exact C. }
  intros. split; eapply S; eauto. tauto.
Qed.
(** Without the check the program behaves alike, given that the condition only tells whether the
    pointer is null and that the branch does nothing when it is. *)
Theorem c90_dropping_check_preserves : forall st (atom : node -> st -> value -> st -> Prop) select (null : st -> Prop) n c t,
  n_shape n = IfStmt [] c t None ->
  (forall s v s', eval atom c s v s' <-> s' = s /\ (v = Fails ACut \/ exists b, v = Truth b /\ (b = false <-> null s))) ->
  (forall s o s', null s -> (does atom select t Start s o s' <-> s' = s /\ (o = Normal \/ o = Abrupt ACut))) ->
  (forall s, null s \/ ~ null s) ->
  forall en s o s', en = Start \/ inside en t -> (does atom select n en s o s' <-> does atom select t en s o s').
Proof.
  intros st atom select null n c t En C T D en s o s' [->|I].
  - rewrite (does_if atom select n _ _ _ _ _ _ _ En). setoid_rewrite head_nil. setoid_rewrite C. split.
    + intros [(a & -> & -> & [[= ->]|(b & [=] & _)])|[(s1 & [-> _] & H)|(s1 & [-> [[=]|(b & [= <-] & B)]] & -> & <-)]]; auto.
      * apply does_cut.
      * apply T; [tauto|auto].
    + intros H. destruct (D s) as [N|N].
      * apply (T s o s' N) in H as (-> & [->| ->]).
        -- right. right. exists s. split; auto. split; auto. right. exists false. tauto.
        -- left. exists ACut. auto.
      * right. left. exists s. split; auto. split; auto. right. exists true. split; auto. split; [discriminate|tauto].
  - rewrite (does_if_into atom select n _ _ _ _ _ _ _ _ En (start_or _ _ I)). split; [|auto].
    intros [[-> ->]|[[_ H]|(? & [=] & _)]]; auto. apply does_cut.
Qed.
Definition ex_pointer (i : nat) : node := nd i (ImplicitCastExpr CK_LValueToRValue (nd (i + 1) (DeclRefExpr 7 $"p" false))).
Definition ex_nullptr (i : nat) : node := nd i (ImplicitCastExpr CK_NullToPointer (nd (i + 1) (IntegerLiteral 0))).
Definition ex_same (a b : node) : bool :=
  match n_shape a, n_shape b with DeclRefExpr d _ _, DeclRefExpr d' _ _ => d =? d' | _, _ => false end.
Definition ex_guarded : node :=
  nd 1 (IfStmt [] (nd 2 (BinaryOperator BO_NE (ex_nullptr 3) (ex_pointer 5))) (nd 8 (CompoundStmt
    [nd 9 (CXXDeleteExpr (ex_pointer 10)); nd 12 (BinaryOperator BO_Assign (nd 13 (DeclRefExpr 7 $"p" false)) (ex_nullptr 14))])) None).
Example c90_case : guarded_delete ex_same ex_guarded /\ reports (UnnecessaryNullCheck_visit ex_same) ex_guarded = [Report ex_guarded []].
Proof.
  assert (U : forall i, uncast (ex_pointer i) (nd (i + 1) (DeclRefExpr 7 $"p" false))).
  { intros i. eapply un_cast; [eapply ca_implicit; reflexivity|]. apply un_done. intros k m K. inversion K; discriminate. }
  split; [|reflexivity]. exists [], (nd 2 (BinaryOperator BO_NE (ex_nullptr 3) (ex_pointer 5))). do 2 eexists. split; [reflexivity|]. split.
  - eapply nt_left; [reflexivity|eapply np_here, ca_implicit; reflexivity|apply U].
  - right. right. do 2 eexists. split; [reflexivity|]. split.
    + do 2 eexists. split; [reflexivity|]. split; [apply U|reflexivity].
    + do 3 eexists. split; [reflexivity|]. split; [eapply np_here, ca_implicit; reflexivity|].
      split; [apply un_done; intros k m K; inversion K; discriminate|reflexivity].
Qed.

Print Assumptions c60_exactly_unneeded.
Print Assumptions c60_one_per_chain.
Print Assumptions c60_removing_else_preserves.
Print Assumptions c60_label_refuted.
Print Assumptions c61_if_exactly.
Print Assumptions c61_choice_exactly.
Print Assumptions c61_if_symmetric.
Print Assumptions c61_choice_symmetric.
Print Assumptions c61_if_is_its_condition.
Print Assumptions c61_choice_is_its_condition.
Print Assumptions c61_unrelated_refuted.
Print Assumptions c61_different_numbers_refuted.
Print Assumptions c88_exactly_redundant.
Print Assumptions c88_same_name_refuted.
Print Assumptions c89_exactly_useless.
Print Assumptions c89_removing_preserves.
Print Assumptions c90_exactly_guarded.
Print Assumptions c90_operand_order.
Print Assumptions c90_dropping_check_preserves.
