(** * C65: null checks; C91: redundant nil check *)
From Verif Require Import Base BaseFacts ModelAST ModelRules ModelRulesBasic ModelRulesNullCheck SpecFilter SpecAST SpecRules
  SpecExec SpecRulesBasic SpecRulesNullCheck ProofAST ProofRules ProofExec ProofRulesBasic ProofRulesNullCheck PropAST.
Local Arguments lit : simpl never.

(** ** C65 *)
Theorem c65_broken_exactly : forall root,
  reports_exactly (broken_check UMember) (fun n => Report n []) root (reports BrokenNullCheck_visit root)
  /\ reports_exactly (broken_check UMessage) (fun n => Report n []) root (reports BrokenNilCheck_visit root).
Proof. intros. split; apply reports_exactly_intro; intros n; [apply (broken_node UMember)|apply (broken_node UMessage)]. Qed.
Theorem c65_misplaced_exactly : forall root,
  reports_exactly (misplaced_check UMember) (fun n => Report n []) root (reports MisplacedNullCheck_visit root)
  /\ reports_exactly (misplaced_check UMessage) (fun n => Report n []) root (reports MisplacedNilCheck_visit root).
Proof. intros. split; apply reports_exactly_intro; intros n; [apply (misplaced_node UMember)|apply (misplaced_node UMessage)]. Qed.
(** Which side of the comparison the null pointer stands on does not matter. *)
Theorem c65_operand_order : forall cmp op a b check check' other n n',
  n_shape check = BinaryOperator cmp a b -> n_shape check' = BinaryOperator cmp b a ->
  (n_shape n = BinaryOperator op check other /\ n_shape n' = BinaryOperator op check' other
   \/ n_shape n = BinaryOperator op other check /\ n_shape n' = BinaryOperator op other check') ->
  (BrokenNullCheck_visit n = [] <-> BrokenNullCheck_visit n' = [])
  /\ (BrokenNilCheck_visit n = [] <-> BrokenNilCheck_visit n' = [])
  /\ (MisplacedNullCheck_visit n = [] <-> MisplacedNullCheck_visit n' = [])
  /\ (MisplacedNilCheck_visit n = [] <-> MisplacedNilCheck_visit n' = []).
Proof.
  assert (S : forall cmp a b c c' name, n_shape c = BinaryOperator cmp a b -> n_shape c' = BinaryOperator cmp b a ->
    (tests_null c name -> tests_null c' name) /\ (tests_not_null c name -> tests_not_null c' name)).
  { intros cmp a b c c' name E E'.
    assert (C : forall op, compares op c name -> compares op c' name).
    { intros op (l & r & F & H). assert (op = cmp /\ l = a /\ r = b) as (-> & -> & ->) by (repeat split; congruence).
      exists b, a. split; auto. destruct H as [(? & ? & ?)|(? & ? & ?)]; auto. }
    split; inversion 1; subst.
    - apply tn_compare. auto.
    - congruence.
    - apply tt_compare. auto.
    - exfalso. destruct H0 as [_ [[m Q]|[m Q]]]; congruence. }
  assert (uses_swap : forall u c c' name, kids c' = rev (kids c) -> (exists o l r, n_shape c = BinaryOperator o l r) ->
     (exists o l r, n_shape c' = BinaryOperator o l r) -> uses u c name -> uses u c' name).
  { intros u c c' name K (o & l & r & E) (o' & l' & r' & E') (m & B & H). exists m. split; auto.
    inversion B; subst.
    - exfalso. destruct u; [destruct H as (? & Q & _)|destruct H as (? & ? & ? & Q & _)]; congruence.
    - eapply below_child; [|eassumption]. rewrite K, <- in_rev. auto. }
  assert (G : forall u cmp op a b c c' x n n', n_shape c = BinaryOperator cmp a b -> n_shape c' = BinaryOperator cmp b a ->
     (n_shape n = BinaryOperator op c x /\ n_shape n' = BinaryOperator op c' x
      \/ n_shape n = BinaryOperator op x c /\ n_shape n' = BinaryOperator op x c') ->
     (broken_check u n -> broken_check u n') /\ (misplaced_check u n -> misplaced_check u n')).
  { intros u cmp op a b c c' x n n' E E' F.
    assert (K : kids c' = rev (kids c)) by (unfold kids; now rewrite E, E').
    split; intros (op' & l & r & name & F' & N & U & T); destruct (S cmp a b c c' name E E') as [S1 S2];
      destruct F as [[F1 F2]|[F1 F2]].
    - assert (op' = op /\ l = c /\ r = x) as (-> & -> & ->) by (repeat split; congruence).
      exists op, c', x, name. repeat split; auto. destruct T as [[? ?]|[? ?]]; auto.
    - assert (op' = op /\ l = x /\ r = c) as (-> & -> & ->) by (repeat split; congruence).
      exists op, x, c', name. repeat split; auto. eapply uses_swap; eauto 6.
    - assert (op' = op /\ l = c /\ r = x) as (-> & -> & ->) by (repeat split; congruence).
      exists op, c', x, name. repeat split; auto. eapply uses_swap; eauto 6.
    - assert (op' = op /\ l = x /\ r = c) as (-> & -> & ->) by (repeat split; congruence).
      exists op, x, c', name. repeat split; auto. destruct T as [[? ?]|[? ?]]; auto. }
  intros cmp op a b check check' other n n' E E' F.
  assert (F' : n_shape n' = BinaryOperator op check' other /\ n_shape n = BinaryOperator op check other
    \/ n_shape n' = BinaryOperator op other check' /\ n_shape n = BinaryOperator op other check) by tauto.
  pose proof (fun u => G u _ _ _ _ _ _ _ _ _ E E' F) as A. pose proof (fun u => G u _ _ _ _ _ _ _ _ _ E' E F') as B.
  assert (X : forall u, (BrokenCheck_visit (has u) n = [] <-> BrokenCheck_visit (has u) n' = [])
    /\ (MisplacedCheck_visit (has u) n = [] <-> MisplacedCheck_visit (has u) n' = [])).
  { intros u. destruct (A u) as [A1 A2], (B u) as [B1 B2]. split.
    - destruct (broken_node u n) as [[P ->]|[P ->]], (broken_node u n') as [[Q ->]|[Q ->]]; split; congruence || tauto.
    - destruct (misplaced_node u n) as [[P ->]|[P ->]], (misplaced_node u n') as [[Q ->]|[Q ->]]; split; congruence || tauto. }
  destruct (X UMember), (X UMessage). auto.
Qed.
(** What makes a broken check broken: if checks tell the truth about which variables are null,
    then the operand with the use is evaluated only where the variable is null. *)
Definition truthful {st} (atom : node -> st -> value -> st -> Prop) (null : str -> st -> Prop) : Prop :=
  forall e name s b s', eval atom e s (Truth b) s' ->
    (tests_not_null e name -> (b = false <-> null name s')) /\ (tests_null e name -> (b = true <-> null name s')).
Theorem c65_use_meets_null : forall st (atom : node -> st -> value -> st -> Prop) null u n,
  truthful atom null -> broken_check u n ->
  exists op l r name, n_shape n = BinaryOperator op l r /\ uses u r name
  /\ forall s v s', eval atom n s v s' -> eval atom l s v s' \/ exists s1, null name s1 /\ eval atom r s1 v s'.
Proof.
  intros st atom null u n T (op & l & r & name & E & N & U & H). exists op, l, r, name. split; auto. split; auto.
  intros s v s' X. destruct H as [[-> H]|[-> H]].
  - inversion X; subst; try congruence.
    + exfalso. match goal with K : ~ structured _ |- _ => apply K end. unfold structured. now rewrite E.
    + left. apply ev_cut.
    + replace l0 with l in * by congruence. auto.
    + replace l0 with l in * by congruence. replace r0 with r in * by congruence. right. exists s1. split; auto.
      match goal with K : eval _ l _ (Truth _) _ |- _ => destruct (T _ name _ _ _ K) as [T1 _] end. now apply (T1 H).
  - inversion X; subst; try congruence.
    + exfalso. match goal with K : ~ structured _ |- _ => apply K end. unfold structured. now rewrite E.
    + left. apply ev_cut.
    + replace l0 with l in * by congruence. auto.
    + replace l0 with l in * by congruence. replace r0 with r in * by congruence. right. exists s1. split; auto.
      match goal with K : eval _ l _ (Truth _) _ |- _ => destruct (T _ name _ _ _ K) as [_ T1] end. now apply (T1 H).
Qed.
Definition ex_read (i : nat) : node := nd i (ImplicitCastExpr CK_LValueToRValue (nd (i + 1) (DeclRefExpr 0 $"p" false))).
Definition ex_null (i : nat) : node := nd i (ImplicitCastExpr CK_NullToPointer (nd (i + 1) (IntegerLiteral 0))).
(** [NULL != p || p->m], [p == NULL && p->m], [p->m && p], [p != NULL && p->m] *)
Definition ex_checks : list node :=
  [nd 1 (BinaryOperator BO_LOr (nd 2 (BinaryOperator BO_NE (ex_null 3) (ex_read 5))) (nd 7 (MemberExpr true (ex_read 8))));
   nd 1 (BinaryOperator BO_LAnd (nd 2 (BinaryOperator BO_EQ (ex_read 5) (ex_null 3))) (nd 7 (MemberExpr true (ex_read 8))));
   nd 1 (BinaryOperator BO_LAnd (nd 7 (MemberExpr true (ex_read 8))) (ex_read 5));
   nd 1 (BinaryOperator BO_LAnd (nd 2 (BinaryOperator BO_NE (ex_read 5) (ex_null 3))) (nd 7 (MemberExpr true (ex_read 8))))].
Example c65_case :
  map (fun n => length (reports BrokenNullCheck_visit n)) ex_checks = [1; 1; 0; 0]
  /\ map (fun n => length (reports MisplacedNullCheck_visit n)) ex_checks = [0; 0; 1; 0].
Proof. split; reflexivity. Qed.
(** Checks that tell the truth exist: the state says whether [p] (any variable) is null. *)
Example c65_truthful_case : exists atom : node -> bool -> value -> bool -> Prop, truthful atom (fun _ s => s = true)
  /\ eval atom (nd 2 (BinaryOperator BO_NE (ex_null 3) (ex_read 5))) true (Truth false) true.
Proof.
  exists (fun e s v s' => s' = s /\ ((exists name, tests_not_null e name) /\ v = Truth (negb s)
                                     \/ (exists name, compares BO_EQ e name) /\ v = Truth s)). split.
  - assert (D : forall e name name', compares BO_EQ e name -> tests_not_null e name' -> False).
    { intros e name name' (l & r & E & _) T. inversion T; subst.
      - destruct H as (? & ? & Q & _). congruence.
      - destruct H as [_ [[? Q]|[? Q]]]; congruence. }
    assert (P : forall e name s b s', eval (fun e s v s' => s' = s /\ ((exists name, tests_not_null e name) /\ v = Truth (negb s)
                                     \/ (exists name, compares BO_EQ e name) /\ v = Truth s)) e s (Truth b) s' ->
       tests_not_null e name -> (b = false <-> s' = true)).
    { intros e name s b s' X T. inversion X; subst;
        try (exfalso; inversion T; subst; [match goal with K : compares _ _ _ |- _ => destruct K as (? & ? & Q & _); congruence end
                                          |match goal with K : as_condition _ _ |- _ => destruct K as [_ [[? Q]|[? Q]]]; congruence end]).
      match goal with X : _ /\ _ |- _ => rename X into AT end. destruct AT as [-> [[_ K]|[[name' C] K]]].
      - injection K as ->. destruct s; simpl; split; congruence.
      - exfalso. eapply D; eauto. }
    intros e name s b s' X. split; [eapply P; eauto|]. intros T. inversion T; subst.
    + pose proof H as (l & r & E & _). inversion X; subst; try congruence.
      match goal with X : _ /\ _ |- _ => rename X into AT end. destruct AT as [-> [[[name' C] K]|[_ K]]].
      * exfalso. eapply D; eauto.
      * injection K as ->. tauto.
    + inversion X; subst; try congruence.
      * exfalso. match goal with K : ~ structured _ |- _ => apply K end. unfold structured. now rewrite H.
      * replace e0 with m in * by congruence. rewrite <- (P m name s b0 s'); auto; [|now apply tt_plain]. destruct b0; simpl; split; congruence.
  - apply ev_atom; [unfold structured; simpl; auto|]. split; auto. left. split; [|reflexivity]. exists $"p".
    apply tt_compare. exists (ex_null 3), (ex_read 5). split; [reflexivity|]. left. repeat split.
    + eapply nc_plain. reflexivity.
    + inversion 1; discriminate.
    + eapply rd_ref; [reflexivity|discriminate|reflexivity].
Qed.

(** ** C91 *)
Theorem c91_exactly_redundant : forall root,
  reports_exactly redundant_nil_check (fun n => Report n []) root (reports RedundantNilCheck_visit root).
Proof. intros. apply reports_exactly_intro. intros n. apply redundant_nil_node. Qed.
(** Dropping the check keeps the value if the right side has no effect and is false on nil. *)
Theorem c91_dropping_check_preserves : forall st (atom : node -> st -> value -> st -> Prop) (nil : st -> Prop) n l r,
  n_shape n = BinaryOperator BO_LAnd l r ->
  (forall s v s', eval atom l s v s' <-> s' = s /\ (v = Fails ACut \/ exists b, v = Truth b /\ (b = false <-> nil s))) ->
  (forall s v s', nil s -> (eval atom r s v s' <-> s' = s /\ (v = Truth false \/ v = Fails ACut))) ->
  (forall s, nil s \/ ~ nil s) ->
  forall s v s', eval atom n s v s' <-> eval atom r s v s'.
Proof.
  intros st atom nil n l r E L R D s v s'. rewrite (eval_and atom n l r s v s' E). split.
  - intros [[H V]|(s1 & H & K)].
    + apply L in H as (-> & [->|(b & -> & B)]).
      * apply ev_cut.
      * destruct b; [congruence|]. apply R; [tauto|auto].
    + apply L in H as (-> & _). exact K.
  - intros K. destruct (D s) as [N|N].
    + left. apply (R s v s' N) in K as (-> & [->| ->]); (split; [|discriminate]); apply L; split; auto.
      right. exists false. tauto.
    + right. exists s. split; auto. apply L. split; auto. right. exists true. split; auto. split; [discriminate|tauto].
Qed.
(** Finding: the rule also reports [p && [p count] == 0], where dropping the check turns the
    answer for nil from false to true. *)
Definition ex_msg : msginfo :=
  {| ms_selector := $"count"; ms_receiver := RInstance; ms_implicit := false; ms_interface := Some $"NSArray";
     ms_method := None; ms_methodClass := None |}.
Definition ex_count_zero : node :=
  nd 1 (BinaryOperator BO_LAnd (ex_read 2)
    (nd 4 (BinaryOperator BO_EQ (nd 5 (ObjCMessageExpr ex_msg (Some (ex_read 6)) [])) (nd 8 (IntegerLiteral 0))))).
Theorem c91_needed_check_refuted : exists n l r, reports RedundantNilCheck_visit n = [Report n []]
  /\ n_shape n = BinaryOperator BO_LAnd l r
  /\ exists atom : node -> bool -> value -> bool -> Prop,      (* the state: is p nil? *)
     (forall s b s', eval atom l s (Truth b) s' -> b = negb s)
     /\ ~ (forall s v s', eval atom n s v s' <-> eval atom r s v s').
Proof.
  exists ex_count_zero. eexists _, _. split; [reflexivity|]. split; [reflexivity|].
  exists (fun e s v s' => s' = s /\ v = Truth (match n_shape e with BinaryOperator _ _ _ => true | _ => negb s end)). split.
  - intros s b s' H. inversion H; subst; try discriminate. match goal with X : _ /\ _ |- _ => rename X into AT end. destruct AT as [_ K]. injection K as ->.
    reflexivity.
  - intros H. specialize (H true (Truth true) true). destruct H as [_ H].
    assert (K : eval (fun e (s : bool) v s' => s' = s /\ v = Truth (match n_shape e with BinaryOperator _ _ _ => true | _ => negb s end))
      ex_count_zero true (Truth true) true).
    { apply H. apply ev_atom; [simpl; auto|auto]. }
    apply (eval_and _ ex_count_zero _ _ _ _ _ eq_refl) in K as [[K1 K2]|(s1 & K1 & K2)]; [congruence|].
    inversion K1; subst; try discriminate. match goal with X : _ /\ _ |- _ => rename X into AT end. destruct AT as [-> K]. discriminate.
Qed.
Example c91_case : redundant_nil_check ex_count_zero
  /\ reports RedundantNilCheck_visit (nd 9 (BinaryOperator BO_LAnd (ex_read 2)
       (nd 4 (UnaryOperator UO_LNot (nd 5 (ObjCMessageExpr ex_msg (Some (ex_read 6)) [])))))) = [].
Proof.
  split; [|reflexivity]. do 2 eexists. exists $"p". split; [reflexivity|]. split; [discriminate|]. split; [|split].
  - apply tt_plain. split; [eapply rd_ref; [reflexivity|discriminate|reflexivity]|right; eexists; reflexivity].
  - exists (nd 5 (ObjCMessageExpr ex_msg (Some (ex_read 6)) [])). split.
    + eapply below_child; [left; reflexivity|apply below_self].
    + do 3 eexists. split; [reflexivity|]. eapply rd_ref; [reflexivity|discriminate|reflexivity].
  - discriminate.
Qed.
Print Assumptions c65_broken_exactly.
Print Assumptions c65_misplaced_exactly.
Print Assumptions c65_operand_order.
Print Assumptions c65_use_meets_null.
Print Assumptions c91_exactly_redundant.
Print Assumptions c91_dropping_check_preserves.
Print Assumptions c91_needed_check_refuted.
