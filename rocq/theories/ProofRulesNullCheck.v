(** * Lemmas about the null check rules *)
From Verif Require Import Base BaseFacts ModelConfig ModelAST ModelRules ModelRulesBasic ModelRulesNullCheck SpecFilter SpecAST
  ProofAST SpecRules ProofRules SpecExec SpecRulesBasic ProofRulesBasic SpecRulesNullCheck.

Lemma binop_eqb_eq a b : binop_eqb a b = true <-> a = b.
Proof. unfold binop_eqb. destruct (binop_eq_dec a b); split; congruence. Qed.

Lemma null_constant_iff n : isNullToPointer n = true <-> null_constant n.
Proof.
  unfold isNullToPointer. split.
  - destruct (n_shape n) eqn:E; try discriminate. destruct kind; try discriminate.
    + intros _. eapply nc_plain; eauto.
    + destruct (skipParens_spec sub) as [P _].
      destruct (n_shape (skipParens sub)) eqn:F; try discriminate. destruct kind; try discriminate.
      intros _. eapply nc_cast; eauto.
  - inversion 1; subst; rewrite H0; auto.
    erewrite <- (parenthesised_skip m e) by (auto; intros; congruence). now rewrite H2.
Qed.
Lemma cast_eq i t k sub : extractIdentifierFromCast (Node i t (ImplicitCastExpr k sub)) =
  match k with CK_PointerToBoolean => extractIdentifierFromCast sub
  | _ => match n_shape sub with DeclRefExpr _ name _ => name | _ => [] end end.
Proof. destruct k; reflexivity. Qed.
Lemma reads_iff n name : name <> [] -> (extractIdentifierFromCast n = name <-> reads n name).
Proof.
  intros N. induction n as [n IH] using node_ind'. destruct n as [i t s]. split.
  - destruct s; try (intros <-; exfalso; apply N; reflexivity). rewrite cast_eq.
    destruct (castkind_eq_dec kind CK_PointerToBoolean) as [->|K].
    + intros H. eapply rd_truth; [reflexivity|]. apply IH; [simpl; auto|exact H].
    + intros H. assert (E : match n_shape sub with DeclRefExpr _ name _ => name | _ => [] end = name) by (destruct kind; [exact H|exact H|now destruct K|exact H|exact H]).
      clear H. destruct (n_shape sub) eqn:F; try (exfalso; apply N; symmetry; exact E). subst. eapply rd_ref; [reflexivity|auto|eauto].
  - inversion 1; subst; simpl in H0; subst s; rewrite cast_eq.
    + rewrite H2. destruct k; congruence.
    + apply IH; simpl; auto.
Qed.
Lemma found_below f n : found f n = true <-> exists m, below n m /\ f m = true.
Proof. apply found_iff. Qed.
Lemma member_iff name n : name <> [] -> (hasVariableInMember name n = true <-> uses UMember n name).
Proof.
  intros N. unfold hasVariableInMember, uses. rewrite found_iff. split; intros (m & B & H); exists m; (split; [exact B|]).
  - unfold memberOf in H. destruct (n_shape m) eqn:E; try discriminate. destruct isArrow; try discriminate.
    apply str_eqb_eq in H. eexists. split; [reflexivity|]. apply reads_iff; auto.
  - destruct H as (b & E & R). unfold memberOf. rewrite E. apply str_eqb_eq. symmetry. now apply reads_iff.
Qed.
Lemma message_iff name n : name <> [] -> (hasVariableInMessage name n = true <-> uses UMessage n name).
Proof.
  intros N. unfold hasVariableInMessage, uses. rewrite found_iff. split; intros (m & B & H); exists m; (split; [exact B|]).
  - unfold messageTo in H. destruct (n_shape m) eqn:E; try discriminate. destruct instanceReceiver as [r|].
    + apply str_eqb_eq in H. do 3 eexists. split; [reflexivity|]. apply reads_iff; auto.
    + apply str_eqb_eq in H. congruence.
  - destruct H as (i & r & args & E & R). unfold messageTo. rewrite E. apply str_eqb_eq. symmetry. now apply reads_iff.
Qed.
Definition has (u : use) : str -> node -> bool :=
  match u with UMember => hasVariableInMember | UMessage => hasVariableInMessage end.
Lemma has_iff u name n : name <> [] -> (has u name n = true <-> uses u n name).
Proof. destruct u; [apply member_iff|apply message_iff]. Qed.
Lemma same_iff u check other : sameVariable (has u) check other = true <->
  exists name, name <> [] /\ extractIdentifierFromExpr check = name /\ uses u other name.
Proof.
  unfold sameVariable. destruct (extractIdentifierFromExpr check) as [|c s] eqn:E.
  - split; [discriminate|]. intros (name & N & <- & _). congruence.
  - rewrite has_iff by discriminate. split.
    + intros H. exists (c :: s). split; [discriminate|]. auto.
    + intros (name & N & <- & H). exact H.
Qed.

Lemma as_condition_iff n name : name <> [] ->
  (isImplicitDeclRef n = true /\ extractIdentifierFromCast n = name <-> as_condition n name).
Proof.
  intros N. unfold isImplicitDeclRef, as_condition. split.
  - intros [H E]. apply reads_iff in E; auto. split; [exact E|].
    destruct (n_shape n) eqn:F; try discriminate. destruct kind; try discriminate; eauto.
  - intros [R K]. split; [|now apply reads_iff].
    destruct K as [[m K]|[m K]]; rewrite K; auto.
    inversion R; subst; replace m0 with m in * by congruence; [|congruence]. now rewrite H1.
Qed.
Lemma compares_iff op n l r name : n_shape n = BinaryOperator op l r -> name <> [] ->
  (negb (Bool.eqb (isNullToPointer l) (isNullToPointer r)) = true /\ extractIdentifierFromExpr n = name
   <-> compares op n name).
Proof.
  intros E N. unfold extractIdentifierFromExpr, compares. rewrite E. split.
  - intros [X R]. exists l, r. split; auto. destruct (isNullToPointer l) eqn:A; destruct (isNullToPointer r) eqn:B; try discriminate X.
    + left. rewrite <- !null_constant_iff, A, B. repeat split; auto. now apply reads_iff.
    + right. rewrite <- !null_constant_iff, A, B. repeat split; auto. now apply reads_iff.
  - intros (l' & r' & [= <- <-] & [(A & B & R)|(A & B & R)]).
    + apply null_constant_iff in A. rewrite <- null_constant_iff in B. apply not_true_is_false in B.
      rewrite A, B. split; auto. now apply reads_iff.
    + apply null_constant_iff in A. rewrite <- null_constant_iff in B. apply not_true_is_false in B.
      rewrite A, B. split; auto. now apply reads_iff.
Qed.
Lemma not_null_iff n name : name <> [] ->
  (isNeNullCheck n = true /\ extractIdentifierFromExpr n = name <-> tests_not_null n name).
Proof.
  intros N. split.
  - intros [H E]. unfold isNeNullCheck in H.
    destruct (n_shape n) eqn:F;
      try (unfold isImplicitDeclRef in H; rewrite F in H; discriminate H).
    + apply andb_true_iff in H as [H1 H2]. apply binop_eqb_eq in H1. subst op. apply tt_compare. eapply compares_iff; eauto.
    + apply tt_plain. apply as_condition_iff; auto. split; auto. unfold extractIdentifierFromExpr in E. now rewrite F in E.
  - inversion 1; subst.
    + destruct H0 as (l & r & E & K). assert (C : compares BO_NE n name) by (exists l, r; auto).
      apply (compares_iff _ _ _ _ _ E N) in C as [C1 C2]. split; auto. unfold isNeNullCheck. rewrite E, C1. reflexivity.
    + pose proof H0 as [_ K]. apply as_condition_iff in H0 as [A B]; auto.
      unfold isNeNullCheck, extractIdentifierFromExpr. destruct K as [[m K]|[m K]]; rewrite K; auto.
Qed.
Lemma null_iff n name : name <> [] ->
  (isEqNullCheck n = true /\ extractIdentifierFromExpr n = name <-> tests_null n name).
Proof.
  intros N. split.
  - intros [H E]. unfold isEqNullCheck in H.
    destruct (n_shape n) eqn:F; try discriminate H.
    + apply andb_true_iff in H as [H1 H2]. apply binop_eqb_eq in H1. subst op. apply tn_compare. eapply compares_iff; eauto.
    + destruct op; try discriminate. eapply tn_not; [exact F|]. apply as_condition_iff; auto. split; auto.
      unfold extractIdentifierFromExpr in E. now rewrite F in E.
  - inversion 1; subst.
    + destruct H0 as (l & r & E & K). assert (C : compares BO_EQ n name) by (exists l, r; auto).
      apply (compares_iff _ _ _ _ _ E N) in C as [C1 C2]. split; auto. unfold isEqNullCheck. rewrite E, C1. reflexivity.
    + apply as_condition_iff in H1 as [A B]; auto.
      unfold isEqNullCheck, extractIdentifierFromExpr. rewrite H0. auto.
Qed.

Ltac yesno b P := 
  destruct b eqn:?B; [left|right]; (split; [|reflexivity]).
Lemma broken_iff u op l r :
  isNullCheckBroken op l && sameVariable (has u) l r = true
  <-> exists name, name <> [] /\ uses u r name /\ ((op = BO_LOr /\ tests_not_null l name) \/ (op = BO_LAnd /\ tests_null l name)).
Proof.
  rewrite andb_true_iff, same_iff. split.
  - intros [H (name & N & E & U)]. exists name. split; auto. split; auto.
    destruct op; try discriminate H; [right|left]; (split; [reflexivity|]); [apply null_iff|apply not_null_iff]; auto.
  - intros (name & N & U & [[-> T]|[-> T]]); [apply not_null_iff in T as [T E]|apply null_iff in T as [T E]]; auto;
      (split; [exact T|]); eauto.
Qed.
Lemma misplaced_iff u op l r :
  isNullCheckMisplaced op r && sameVariable (has u) r l = true
  <-> exists name, name <> [] /\ uses u l name /\ ((op = BO_LAnd /\ tests_not_null r name) \/ (op = BO_LOr /\ tests_null r name)).
Proof.
  rewrite andb_true_iff, same_iff. split.
  - intros [H (name & N & E & U)]. exists name. split; auto. split; auto.
    destruct op; try discriminate H; [left|right]; (split; [reflexivity|]); [apply not_null_iff|apply null_iff]; auto.
  - intros (name & N & U & [[-> T]|[-> T]]); [apply not_null_iff in T as [T E]|apply null_iff in T as [T E]]; auto;
      (split; [exact T|]); eauto.
Qed.
Lemma broken_node u n : broken_check u n /\ BrokenCheck_visit (has u) n = [plainReport n]
  \/ ~ broken_check u n /\ BrokenCheck_visit (has u) n = [].
Proof.
  unfold BrokenCheck_visit, broken_check.
  destruct (n_shape n) eqn:E;
    try (right; split; [intros (? & ? & ? & ? & Q & _); discriminate Q|reflexivity]).
  pose proof (broken_iff u op lhs rhs) as I.
  destruct (isNullCheckBroken op lhs && sameVariable (has u) lhs rhs); [left|right]; (split; [|reflexivity]).
  - destruct I as [I _]. destruct (I eq_refl) as (name & H). exists op, lhs, rhs, name. auto.
  - intros (op' & l & r & name & [= <- <- <-] & H). destruct I as [_ I].
    assert (false = true) by (apply I; exists name; exact H). discriminate.
Qed.
Lemma misplaced_node u n : misplaced_check u n /\ MisplacedCheck_visit (has u) n = [plainReport n]
  \/ ~ misplaced_check u n /\ MisplacedCheck_visit (has u) n = [].
Proof.
  unfold MisplacedCheck_visit, misplaced_check.
  destruct (n_shape n) eqn:E;
    try (right; split; [intros (? & ? & ? & ? & Q & _); discriminate Q|reflexivity]).
  pose proof (misplaced_iff u op lhs rhs) as I.
  destruct (isNullCheckMisplaced op rhs && sameVariable (has u) rhs lhs); [left|right]; (split; [|reflexivity]).
  - destruct I as [I _]. destruct (I eq_refl) as (name & H). exists op, lhs, rhs, name. auto.
  - intros (op' & l & r & name & [= <- <- <-] & H). destruct I as [_ I].
    assert (false = true) by (apply I; exists name; exact H). discriminate.
Qed.
Lemma redundant_iff op l r :
  isRedundantNilCheck op l r && sameVariable hasVariableInMessage l r = true
  <-> exists name, op = BO_LAnd /\ name <> [] /\ tests_not_null l name /\ uses UMessage r name
      /\ forall e, n_shape r <> UnaryOperator UO_LNot e.
Proof.
  rewrite andb_true_iff. change hasVariableInMessage with (has UMessage). rewrite same_iff.
  unfold isRedundantNilCheck. rewrite !andb_true_iff, binop_eqb_eq.
  assert (X : match n_shape r with UnaryOperator o _ => negb (unop_eqb o UO_LNot) | _ => true end = true
              <-> forall e, n_shape r <> UnaryOperator UO_LNot e).
  { destruct (n_shape r); try (split; [intros _ ? [=]|reflexivity]).
    destruct op0; (split; [try discriminate|try reflexivity]); try (intros _ ? [=]). intros H. exfalso. eapply H. reflexivity. }
  rewrite X. split.
  - intros [[[-> T] M] (name & N & E & U)]. exists name. repeat split; auto. apply not_null_iff; auto.
  - intros (name & -> & N & T & U & M). apply not_null_iff in T as [T E]; auto. repeat split; auto. eauto.
Qed.
Lemma redundant_nil_node n : redundant_nil_check n /\ RedundantNilCheck_visit n = [plainReport n]
  \/ ~ redundant_nil_check n /\ RedundantNilCheck_visit n = [].
Proof.
  unfold RedundantNilCheck_visit, redundant_nil_check.
  destruct (n_shape n) eqn:E;
    try (right; split; [intros (? & ? & ? & Q & _); discriminate Q|reflexivity]).
  pose proof (redundant_iff op lhs rhs) as I.
  destruct (isRedundantNilCheck op lhs rhs && sameVariable hasVariableInMessage lhs rhs); [left|right]; (split; [|reflexivity]).
  - destruct I as [I _]. destruct (I eq_refl) as (name & -> & H). exists lhs, rhs, name. auto.
  - intros (l & r & name & [= -> <- <-] & H). destruct I as [_ I].
    assert (false = true) by (apply I; exists name; auto). discriminate.
Qed.
