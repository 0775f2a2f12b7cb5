(** * Property C142: following the advice of the rules keeps what a function does *)
From Verif Require Import Base BaseFacts ModelAST ModelRules ModelRulesBasic ModelRulesConvention ModelRulesRedundant SpecFilter SpecAST SpecRules
  SpecExec SpecRulesBasic SpecRulesConvention SpecRulesRedundant SpecAdvice ProofAST ProofRules ProofExec ProofExecSeq ProofRulesBasic
  ProofRulesConvention ProofRulesRedundant ProofAdvice PropAST PropRulesBasic PropRulesConvention PropRulesRedundant PropRulesEffect.
Local Arguments lit : simpl never.

Section A.
  Context {st : Type} (atom : node -> st -> value -> st -> Prop) (select : node -> st -> option nat -> st -> Prop).
  Notation does := (does atom select).
  Notation agree := (agree atom select).
  Notation eagree := (eagree atom).

  Lemma execs_enter block i l en s t o s' : execs atom select block i l en s t o s' -> en = Start \/ exists m, In m l /\ inside en m.
  Proof.
    revert i en s t o s'. induction l as [|a l IH]; intros i en s t o s' X; inversion X; subst; auto.
    - match goal with K : execs _ _ _ _ l _ _ _ _ _ |- _ => apply IH in K as [->|(m & I & J)]; [now left|] end. right. exists m. split; [now right|auto].
    - right. exists a. split; [now left|auto].
    - right. exists a. split; [now left|auto].
  Qed.
  Lemma enters n en s o s' : does n en s o s' -> o <> Abrupt ACut -> en = Start \/ inside en n.
  Proof.
    intros [t X] N. inversion X; subst; auto; try congruence.
    - apply execs_enter in H0 as [->|(m & I & J)]; auto. right. apply (inside_compound n l en H). eauto.
    - right. eapply in_label; eauto.
    - right. apply in_sub with (m := m); auto; [unfold enterable; rewrite H; now left|]. intros i _ (? & ? & ? & ? & Q). congruence.
    - right. eapply in_case; eauto.
    - right. apply in_sub with (m := m); auto; [unfold enterable; rewrite H; now left|]. intros i _ (? & ? & ? & ? & Q). congruence.
    - right. eapply in_default; eauto.
    - right. apply in_sub with (m := m); auto; [unfold enterable; rewrite H; now left|]. intros i _ (? & ? & ? & ? & Q). congruence.
    - right. apply (inside_if atom select n _ _ _ _ en H). auto.
    - right. apply (inside_if atom select n _ _ _ _ en H). eauto.
    - right. now apply (inside_loop n L en H).
    - right. apply (inside_switch n _ _ _ _ (AtLabel l) H). eauto.
  Qed.
  (** It is enough to compare entries at the start and at labels inside. *)
  Lemma agree_intro a b : (forall en, inside en a <-> inside en b) ->
    (forall en s o s', o <> Abrupt ACut -> en = Start \/ inside en a -> (does a en s o s' <-> does b en s o s')) -> agree a b.
  Proof.
    intros I H. split; auto. intros en s o s' N. split; intros X.
    - destruct (enters _ _ _ _ _ X N) as [E|E]; apply (H en s o s' N); auto.
    - destruct (enters _ _ _ _ _ X N) as [E|E]; apply (H en s o s' N); auto. right. now apply I.
  Qed.
  Lemma agree_start a b : nothing_inside a -> nothing_inside b ->
    (forall s o s', o <> Abrupt ACut -> (does a Start s o s' <-> does b Start s o s')) -> agree a b.
  Proof.
    intros A B H. apply agree_intro.
    - intros en. split; intros I; exfalso; [eapply A|eapply B]; eauto.
    - intros en s o s' N [->|I]; auto. exfalso. eapply A; eauto.
  Qed.
  Lemma kind_closed n : enterable n = [] -> ~ labelled_statement n -> nothing_inside n.
  Proof. apply no_labels. Qed.
  Ltac nothing := apply kind_closed; [unfold enterable; match goal with H : n_shape _ = _ |- _ => rewrite H end; reflexivity
    |intros [(? & ? & Q)|[(? & Q)|(? & ? & Q)]]; congruence].

  Lemma only_inside t t' en : only_statement t t' -> (inside en t <-> inside en t').
  Proof. induction 1; [reflexivity|]. rewrite (inside_block n m en H). auto. Qed.
  Lemma without_inside n n' e en : without_else n n' e -> (inside en n <-> inside en n' \/ inside en e).
  Proof.
    induction 1.
    - rewrite (inside_if atom select n _ _ _ _ en H), (inside_if atom select n' _ _ _ _ en H1). split.
      + intros [I|(x & [= <-] & I)]; auto.
      + intros [[I|(x & [=] & I)]|I]; eauto.
    - rewrite (inside_if atom select n _ _ _ _ en H), (inside_if atom select n' _ _ _ _ en H1). split.
      + intros [I|(x & [= <-] & I)]; auto. apply IHwithout_else in I as [I|I]; eauto.
      + intros [[I|(x & [= <-] & I)]|I]; auto; right; exists m; (split; [reflexivity|]); tauto.
  Qed.
  Lemma same_parts L L' : lp_setup L' = lp_setup L -> lp_pre L' = lp_pre L -> lp_test L' = lp_test L ->
    lp_step L' = lp_step L -> lp_bodyFirst L' = lp_bodyFirst L -> L' = with_body L (lp_body L').
  Proof. destruct L, L'. cbn. now intros -> -> -> -> ->. Qed.

  (** What the tail of a block contributes to the labels inside. *)
  Lemma tail_inside b b' l x y en : n_shape b = CompoundStmt (l ++ x) -> n_shape b' = CompoundStmt (l ++ y) ->
    ((exists m, In m x /\ inside en m) <-> (exists m, In m y /\ inside en m)) -> (inside en b <-> inside en b').
  Proof.
    intros E E' H. rewrite (inside_compound b _ en E), (inside_compound b' _ en E').
    split; intros (m & I & J); apply in_app_or in I as [I|I].
    - exists m. split; auto. apply in_or_app. auto.
    - destruct (proj1 H (ex_intro _ m (conj I J))) as (m' & I' & J'). exists m'. split; auto. apply in_or_app. auto.
    - exists m. split; auto. apply in_or_app. auto.
    - destruct (proj2 H (ex_intro _ m (conj I J))) as (m' & I' & J'). exists m'. split; auto. apply in_or_app. auto.
  Qed.

  (** ** Dead code *)
  Lemma dead_forward l p r q : always_jumps p -> own_labels_only p -> nothing_inside r ->
    forall en s o s', dl atom select (l ++ p :: r :: q) en s o s' <-> dl atom select (l ++ p :: q) en s o s'.
  Proof.
    intros J O R. induction l as [|a l IH]; intros en s o s'; cbn [app].
    - rewrite !dl_cons.
      assert (NN : forall en s s', en = Start \/ inside en p -> ~ does p en s Normal s').
      { intros e0 s0 s1 He [t X]. eapply (jump_not_normal atom select); eauto. }
      split.
      + intros [[-> [(s1 & X & _)|X]]|[(A & B & X)|[I [(s1 & X & _)|X]]]].
        * exfalso. eapply NN; eauto.
        * left. auto.
        * right. left. split; auto. split; auto. destruct X as [[-> _]|[(_ & _ & X)|[K _]]]; [congruence|auto|exfalso; eapply R; eauto].
        * exfalso. eapply NN; eauto.
        * right. right. auto.
      + intros [[-> [(s1 & X & _)|X]]|[(A & B & X)|[I [(s1 & X & _)|X]]]].
        * exfalso. eapply NN; eauto.
        * left. auto.
        * right. left. split; [exact A|split; [exact B|right; left; split; [exact A|split; [apply R|exact X]]]].
        * exfalso. eapply NN; eauto.
        * right. right. auto.
    - rewrite !dl_cons. setoid_rewrite IH. reflexivity.
  Qed.
  Lemma nodup_nth {T} (l : list T) i j x : NoDup l -> nth_error l i = Some x -> nth_error l j = Some x -> i = j.
  Proof.
    intros N A B. eapply NoDup_nth_error; eauto; [|congruence]. apply nth_error_Some. congruence.
  Qed.
  Lemma dead_agree b b' l p r q : DeadCode_visit b = [Report r []] -> n_shape b = CompoundStmt (l ++ p :: r :: q) ->
    NoDup (l ++ p :: r :: q) -> own_labels_only p -> nothing_inside r -> n_shape b' = CompoundStmt (l ++ p :: q) -> agree b b'.
  Proof.
    intros V E D O R E'.
    assert (J : always_jumps p).
    { unfold DeadCode_visit in V. rewrite E in V.
      destruct (deadCode_spec (l ++ p :: r :: q) false) as [(H & N & _)|[(x & [=] & _)|(i & p0 & x & (A & B & C & _) & M & _ & H)]];
        rewrite H in V; [discriminate|]. injection V as <-.
      assert (Q : nth_error (l ++ p :: x :: q) (S (length l)) = Some x).
      { rewrite nth_error_app2 by lia. replace (S (length l) - length l) with 1 by lia. reflexivity. }
      assert (S i = S (length l)) by (eapply nodup_nth; eauto). assert (i = length l) by lia. subst i.
      rewrite nth_error_app2 in A by lia. rewrite Nat.sub_diag in A. injection A as <-. exact C. }
    apply agree_intro.
    - intros en. eapply tail_inside; eauto. split.
      + intros (m & [<-|[<-|I]] & K); [exists p; simpl; auto|exfalso; eapply R; eauto|exists m; simpl; auto].
      + intros (m & [<-|I] & K); [exists p; simpl; auto|exists m; simpl; auto].
    - intros en s o s' N _. rewrite (does_compound atom select b _ _ _ _ _ E), (does_compound atom select b' _ _ _ _ _ E').
      now rewrite dead_forward.
  Qed.

  (** ** Each piece of advice *)
  Variable evaluate : node -> option bool.
  Hypothesis O : ordinary atom select evaluate.
  Lemma literal_constant e b : n_shape e = CXXBoolLiteralExpr b -> constant atom e b.
  Proof.
    intros E s v s'. split.
    - intros X. inversion X; subst; try congruence; auto.
      match goal with K : atom _ _ _ _ |- _ => apply (or_literals _ _ _ O e b) in K as [-> ->]; auto end.
    - intros [-> [->| ->]]; [|apply ev_cut]. apply ev_atom; [unfold structured; now rewrite E|]. now apply (or_literals _ _ _ O e b).
  Qed.
  Lemma expr_advice_agrees n k : expr_advice evaluate n k -> eagree n k.
  Proof.
    intros H. destruct H.
    - intros s v s' _. eapply c81_swapping_choice_preserves; eauto.
    - intros s v s' N. eapply c61_choice_is_its_condition; eauto using literal_constant.
    - intros s v s' _. eapply L_constant_conditional_yields_one_operand; eauto. apply O.
  Qed.
  Lemma stmt_advice_agrees lines limit n k : stmt_advice lines limit evaluate n k -> agree n k.
  Proof.
    intros H. destruct H.
    - (* collapse *) apply equivalent_agree.
      + intros en. rewrite (inside_if atom select n _ _ _ _ en H0), (inside_if atom select k _ _ _ _ en H4).
        assert (Q : inside en t <-> inside en t').
        { assert (Qm : inside en m <-> inside en t').
          { rewrite (inside_if atom select m _ _ _ _ en H2). split; [intros [I|(? & [=] & _)]; auto|auto]. }
          destruct H1 as [->|Et]; [auto|]. now rewrite (inside_block t m en Et). }
        rewrite Q. reflexivity.
      + eapply merge_equivalent; eauto.
    - (* while *) apply equivalent_agree.
      + intros en.
        assert (E1 : exists L, loop_of n = Some L /\ lp_body L = b) by (unfold loop_of; rewrite H0; eexists; split; reflexivity).
        assert (E2 : exists L, loop_of k = Some L /\ lp_body L = b) by (unfold loop_of; rewrite H1; eexists; split; reflexivity).
        destruct E1 as (L & E1 & B1), E2 as (L2 & E2 & B2).
        rewrite (inside_loop n L en E1), (inside_loop k L2 en E2), B1, B2. reflexivity.
      + eapply c76_while_behaves_alike; eauto.
    - (* swap *) apply equivalent_agree; [|eapply c81_swapping_if_preserves; eauto].
      intros en. rewrite (inside_if atom select n _ _ _ _ en H0), (inside_if atom select k _ _ _ _ en H2).
      split; intros [I|(x & [= <-] & I)]; eauto.
    - (* unequal *) apply equivalent_agree; [|eapply c81_swapping_unequal_preserves; eauto; intros; eapply (or_unequal _ _ _ O); eauto].
      intros en. rewrite (inside_if atom select n _ _ _ _ en H0), (inside_if atom select k _ _ _ _ en H3).
      split; intros [I|(x & [= <-] & I)]; eauto.
    - (* continue *) apply equivalent_agree.
      + intros en. rewrite (inside_loop n L en H0), (inside_loop n' L' en H3). eapply tail_inside; eauto. split.
        * intros (x & [<-|[]] & I). exists t. split; [simpl; auto|]. now apply (if_inside atom select m _ _ en H2).
        * intros (x & [<-|[<-|[]]] & I).
          -- exfalso. apply (if_inside atom select k _ _ en H10) in I. eapply (continue_inside j); eauto.
          -- exists m. split; [simpl; auto|]. now apply (if_inside atom select m _ _ en H2).
      + eapply c82_early_continue_preserves; eauto. rewrite H3. f_equal. now apply same_parts.
    - (* jump *) apply equivalent_agree.
      + assert (NJ : nothing_inside j).
        { destruct H2; nothing. }
        intros en. eapply tail_inside; eauto. split.
        * intros (x & [<-|[<-|[]]] & I); [|exfalso; eapply NJ; eauto]. exists t. split; [simpl; auto|]. now apply (if_inside atom select m _ _ en H1).
        * intros (x & [<-|[<-|[<-|[]]]] & I); [|exists m; split; [simpl; auto|now apply (if_inside atom select m _ _ en H1)]|exfalso; eapply NJ; eauto].
          exfalso. apply (if_inside atom select k _ _ en H4) in I. eapply NJ; eauto.
      + eapply c82_early_jump_preserves; eauto.
    - (* last continue *) apply equivalent_agree.
      + intros en. rewrite (inside_loop n L en H1), (inside_loop n' L' en H3). eapply tail_inside; eauto.
        split; intros (x & [<-|[]] & I); exfalso; [eapply (continue_inside j)|eapply (null_inside z)]; eauto.
      + eapply c83_last_continue_is_idle; eauto. rewrite H3. f_equal. now apply same_parts.
    - (* else *) apply equivalent_agree; [|eapply c60_removing_else_preserves; eauto].
      intros en. eapply tail_inside; eauto. pose proof (without_inside n n' e en H2) as W. split.
      + intros (x & [<-|I] & J); [|exists x; simpl; auto]. apply W in J as [J|J]; [exists n'|exists e]; simpl; auto.
      + intros (x & [<-|[<-|I]] & J); [exists n; split; [simpl; auto|tauto]|exists n; split; [simpl; auto|tauto]|exists x; simpl; auto].
    - (* dead *) eapply dead_agree; eauto.
    - (* parentheses *) apply equivalent_agree.
      + intros en. rewrite (inside_if atom select n _ _ _ _ en H0), (inside_if atom select k _ _ _ _ en H2). reflexivity.
      + eapply (c89_removing_preserves st atom select n k c x); [split; [eapply we_cond; eauto|eauto]|eauto|left; eauto 8].
    - apply equivalent_agree.
      + intros en. split; intros I; exfalso; revert I; [apply kind_closed with (n := n)|apply kind_closed with (n := k)];
          unfold enterable, labelled_statement; rewrite ?H0, ?H2; auto; intros [(? & ? & Q)|[(? & Q)|(? & ? & Q)]]; discriminate.
      + eapply (c89_removing_preserves st atom select n k v x); [split; [eapply we_return; eauto|eauto]|eauto|right; split; auto].
    - (* redundant if *) split.
      + intros en. rewrite (inside_if atom select n _ _ _ _ en H0).
        assert (A : nothing_inside t') by nothing. assert (B : nothing_inside e') by nothing. assert (C : nothing_inside k) by nothing.
        split.
        * intros [I|(z & [= <-] & I)]; exfalso; [apply (only_inside t t' en H1) in I; eapply A; eauto|apply (only_inside e e' en H2) in I; eapply B; eauto].
        * intros I. exfalso. eapply C; eauto.
      + intros. eapply c61_if_is_its_condition; eauto using literal_constant.
    - (* empty if *)
      assert (L : lone_semicolon_or_empty_block t).
      { apply (reported_empty KIf n t); [econstructor; eauto|cbn; congruence]. }
      apply agree_start.
      + intros en I. apply (if_inside atom select n c t en H0) in I. eapply empty_not_entered; eauto.
      + intros en I. inversion I; subst; unfold isExpr, enterable in *; try (rewrite H2 in H1; discriminate).
        destruct (n_shape c); try discriminate; contradiction.
      + intros s o s' N. rewrite (L_empty_if_only_tests st atom select n [] c t s o s' H0 L N). setoid_rewrite head_nil. split.
        * intros (v & X & ->). eexists. apply x_expr; auto.
        * intros [tr X]. inversion X; subst; try congruence; unfold isExpr in H1;
            try (match goal with K : n_shape c = _ |- _ => rewrite K in H1; discriminate end);
            try (match goal with K : loop_of c = _ |- _ => unfold loop_of in K; destruct (n_shape c); discriminate end); eauto.
    - (* empty else *)
      assert (L : lone_semicolon_or_empty_block e).
      { apply (reported_empty KElse n e); [econstructor; eauto|cbn; congruence]. }
      split.
      + intros en. rewrite (inside_if atom select n _ _ _ _ en H0), (inside_if atom select k _ _ _ _ en H1). split.
        * intros [I|(x & [= <-] & I)]; auto. exfalso. eapply empty_not_entered; eauto.
        * intros [I|(x & [=] & _)]; auto.
      + intros. eapply L_empty_else_can_go; eauto.
    - (* empty try *)
      assert (L : lone_semicolon_or_empty_block b).
      { apply (reported_empty KTry n b); [econstructor; eauto|cbn; congruence]. }
      apply agree_start; [nothing|nothing|]. intros s o s' N. rewrite (does_null atom select k s o s' H1). split.
      + intros [tr X]. destruct (L_empty_try_needs_no_handlers st atom select n b hs s tr o s' H0 L X) as (-> & _ & Q). auto.
      + intros [[->|Q] ->]; [|congruence]. eexists. eapply x_try; eauto. now apply empty_runs.
    - (* empty finally *)
      assert (L : lone_semicolon_or_empty_block fb).
      { apply (reported_empty KFinally f fb); [econstructor; eauto|cbn; congruence]. }
      apply agree_start; [nothing|nothing|]. intros. eapply L_empty_finally_can_go; eauto.
    - (* constant condition *) apply agree_intro.
      + intros en. rewrite (inside_if atom select n _ _ _ _ en H0). split; [intros [I|(x & E & I)]; auto; exfalso; eapply H2; eauto|auto].
      + intros en s o s' N [->|I]; [apply (L_constant_if_takes_one_branch st atom select evaluate n c t e true s o s' (or_folds _ _ _ O)); auto|].
        pose proof (start_or _ _ I) as D. rewrite (does_if_into atom select n _ _ _ _ _ _ _ _ H0 D). split.
        * intros [[-> _]|[[_ X]|(x & E & J & _)]]; [congruence|auto|exfalso; eapply H2; eauto].
        * intros X. right. left. split; auto. apply (inside_if atom select n _ _ _ _ en H0) in I as [I|(x & E & I)]; auto. exfalso; eapply H2; eauto.
    - apply agree_intro.
      + intros en. rewrite (inside_if atom select n _ _ _ _ en H0). split; [intros [I|(x & [= <-] & I)]; auto; exfalso; eapply H2; eauto|eauto].
      + intros en s o s' N [->|I]; [apply (L_constant_if_takes_one_branch st atom select evaluate n c t (Some e) false s o s' (or_folds _ _ _ O)); auto|].
        pose proof (start_or _ _ I) as D. rewrite (does_if_into atom select n _ _ _ _ _ _ _ _ H0 D). split.
        * intros [[-> _]|[[J _]|(x & [= <-] & J & X)]]; [congruence|exfalso; eapply H2; eauto|auto].
        * intros X. right. right. exists e. split; auto. split; auto.
          apply (inside_if atom select n _ _ _ _ en H0) in I as [I|(x & [= <-] & I)]; auto. exfalso; eapply H2; eauto.
    - apply agree_start.
      + intros en I. apply (if_inside atom select n c t en H0) in I. eapply H2; eauto.
      + now apply null_inside.
      + intros s o s' N. rewrite (L_constant_if_takes_one_branch st atom select evaluate n c t None false s o s' (or_folds _ _ _ O)) by auto.
        rewrite (does_null atom select k s o s' H3). split; [intros [-> ->]; auto|intros [[->|Q] ->]; [auto|congruence]].
  Qed.
End A.

(** ** C142 *)
(** Following the advice of these rules, any amount of it at a time, anywhere in the body of a
    function and time and again, changes nothing about how a call of the function can end: not
    the outcome and not the state it leaves.  This holds for all meanings of expressions in which
    literals, [!=] and folded constants mean what they say. *)
Theorem c142_following_advice_keeps_behaviour : forall st (atom : node -> st -> value -> st -> Prop) select evaluate lines limit body body',
  ordinary atom select evaluate -> follows lines limit evaluate body body' ->
  forall s o s', ends atom select body s o s' <-> ends atom select body' s o s'.
Proof.
  intros st atom select evaluate lines limit body body' O F.
  assert (A : agree atom select body body').
  { induction F; [apply agree_refl|]. eapply agree_trans; [|exact IHF].
    eapply (changed_agrees atom select (expr_advice evaluate) (stmt_advice lines limit evaluate)); eauto.
    - intros. eapply expr_advice_agrees; eauto.
    - intros. eapply stmt_advice_agrees; eauto.
    - apply O. }
  intros s o s'. split; intros [N [t X]]; (split; [exact N|]).
  - eapply run_agree; eauto.
  - eapply run_agree; eauto. now apply agree_sym.
Qed.
(** The same for any changes that keep the labels and the behaviour on the spot. *)
Theorem c142_local_changes_suffice : forall st (atom : node -> st -> value -> st -> Prop) select
    (expr_change stmt_change : node -> node -> Prop) body body',
  (forall a b, expr_change a b -> forall s v s', v <> Fails ACut -> (eval atom a s v s' <-> eval atom b s v s')) ->
  (forall a b, stmt_change a b -> (forall en, inside en a <-> inside en b)
     /\ forall en s o s', o <> Abrupt ACut -> (does atom select a en s o s' <-> does atom select b en s o s')) ->
  (forall n n' s i s', n_id n = n_id n' -> (select n s i s' <-> select n' s i s')) ->
  changed expr_change stmt_change body body' ->
  forall s o s', ends atom select body s o s' <-> ends atom select body' s o s'.
Proof.
  intros st atom select X Y body body' HX HY HS C.
  assert (A : agree atom select body body') by (eapply (changed_agrees atom select X Y); eauto).
  intros s o s'. split; intros [N [t R]]; (split; [exact N|]).
  - eapply run_agree; eauto.
  - eapply run_agree; eauto. now apply agree_sym.
Qed.
(** A meaning of expressions: a variable is read and counted, comparisons hold. *)
Definition ex_atom (n : node) (s : nat) (v : value) (s' : nat) : Prop :=
  match n_shape n with
  | CXXBoolLiteralExpr b => v = Truth b /\ s' = s
  | BinaryOperator BO_EQ _ _ => v = Truth true /\ s' = s
  | BinaryOperator BO_NE _ _ => v = Truth false /\ s' = s
  | _ => v = Truth (s <? 5) /\ s' = S s
  end.
Definition ex_evaluate (n : node) : option bool := match n_shape n with CXXBoolLiteralExpr b => Some b | _ => None end.
Definition ex_select (n : node) (s : nat) (i : option nat) (s' : nat) : Prop := i = None /\ s' = s.
Example c142_ordinary : ordinary ex_atom ex_select ex_evaluate.
Proof.
  constructor.
  - intros e b s v s' E. unfold ex_atom. rewrite E. reflexivity.
  - intros c d l r s v s' Ec Ed. unfold ex_atom. rewrite Ec, Ed. destruct v as [b|]; split; intros [E ->]; try discriminate; split; auto.
    + injection E as ->. reflexivity.
    + injection E as E. destruct b; [discriminate|reflexivity].
  - intros c b s v s' E. unfold ex_evaluate in E. destruct (n_shape c) eqn:S; try discriminate. injection E as ->. split.
    + intros X. inversion X; subst; try congruence; auto. unfold ex_atom in *. rewrite S in *. destruct H0. auto.
    + intros [[->| ->] ->]; [|apply ev_cut]. apply ev_atom; [unfold structured; now rewrite S|]. unfold ex_atom. rewrite S. auto.
  - reflexivity.
Qed.
(** [{ for (; a; ) { if (a) { if (!a) { a; } else ; } else ; } return (a); a; }] becomes
    [{ while (a) { if (a) { if (a) ; else { a; } } } return a; }] in three rounds. *)
Definition ex_before : node :=
  nd 1 (CompoundStmt
    [nd 2 (ForStmt None [] (Some (var 3)) None (nd 4 (CompoundStmt
       [nd 5 (IfStmt [] (var 6) (nd 7 (CompoundStmt
          [nd 8 (IfStmt [] (nd 9 (UnaryOperator UO_LNot (var 10))) (nd 11 (CompoundStmt [var 12])) (Some (nd 13 NullStmt)))]))
          (Some (nd 14 NullStmt)))])));
     nd 15 (ReturnStmt (Some (nd 16 (ParenExpr (var 17))))); var 18]).
Definition ex_middle (x : node) (r : list node) : node :=
  nd 1 (CompoundStmt
    ([nd 2 (WhileStmt [] (var 3) (nd 4 (CompoundStmt [x])))] ++ r)).
Example c142_case : exists body', follows (fun _ => 0%Z) 15 ex_evaluate ex_before body' /\
  body' = ex_middle (nd 5 (IfStmt [] (var 6) (nd 7 (CompoundStmt
            [nd 8 (IfStmt [] (var 10) (nd 13 NullStmt) (Some (nd 11 (CompoundStmt [var 12]))))])) None))
            [nd 15 (ReturnStmt (Some (var 17)))].
Proof.
  eexists. split; [|reflexivity].
  (* the loop and the parentheses *)
  eapply fo_step with (m := ex_middle (nd 5 (IfStmt [] (var 6) (nd 7 (CompoundStmt
      [nd 8 (IfStmt [] (nd 9 (UnaryOperator UO_LNot (var 10))) (nd 11 (CompoundStmt [var 12])) (Some (nd 13 NullStmt)))]))
      (Some (nd 14 NullStmt)))) [nd 15 (ReturnStmt (Some (var 17))); var 18]).
  { eapply cs_block; [reflexivity|reflexivity|]. apply cx_cons; [|apply cx_cons; [|apply cx_cons; [apply cs_same|apply cx_nil]]].
    - apply cs_here. eapply ad_while; reflexivity.
    - apply cs_here. eapply ad_parens_return; reflexivity. }
  (* the inner if and the outer else *)
  eapply fo_step with (m := ex_middle (nd 5 (IfStmt [] (var 6) (nd 7 (CompoundStmt
      [nd 8 (IfStmt [] (var 10) (nd 13 NullStmt) (Some (nd 11 (CompoundStmt [var 12]))))])) (Some (nd 14 NullStmt))))
      [nd 15 (ReturnStmt (Some (var 17))); var 18]).
  { eapply cs_block; [reflexivity|reflexivity|]. apply cx_cons; [|apply cx_cons; [apply cs_same|apply cx_cons; [apply cs_same|apply cx_nil]]].
    eapply cs_loop; [reflexivity|reflexivity|reflexivity|reflexivity|reflexivity|apply co_some, ce_same|apply cl_nil|].
    eapply cs_block; [reflexivity|reflexivity|]. apply cx_cons; [|apply cx_nil].
    eapply cs_if; [reflexivity|reflexivity|apply ce_same| |apply cz_some, cs_same].
    eapply cs_block; [reflexivity|reflexivity|]. apply cx_cons; [|apply cx_nil]. apply cs_here. eapply ad_swap; reflexivity. }
  eapply fo_step with (m := ex_middle (nd 5 (IfStmt [] (var 6) (nd 7 (CompoundStmt
      [nd 8 (IfStmt [] (var 10) (nd 13 NullStmt) (Some (nd 11 (CompoundStmt [var 12]))))])) None))
      [nd 15 (ReturnStmt (Some (var 17))); var 18]).
  { eapply cs_block; [reflexivity|reflexivity|]. apply cx_cons; [|apply cx_cons; [apply cs_same|apply cx_cons; [apply cs_same|apply cx_nil]]].
    eapply cs_loop; [reflexivity|reflexivity|reflexivity|reflexivity|reflexivity|apply co_some, ce_same|apply cl_nil|].
    eapply cs_block; [reflexivity|reflexivity|]. apply cx_cons; [|apply cx_nil].
    apply cs_here. eapply ad_empty_else; reflexivity. }
  (* the dead code *)
  eapply fo_step; [|apply fo_done].
  apply cs_here. eapply (ad_dead _ _ _ _ _ [_]); [reflexivity|reflexivity| | | |reflexivity].
  - repeat constructor; cbn; intuition discriminate.
  - apply ol_none. intros en I. inversion I; subst; try discriminate. destruct H.
  - intros en I. inversion I; subst; try discriminate. destruct H.
Qed.
Print Assumptions c142_following_advice_keeps_behaviour.
Print Assumptions c142_local_changes_suffice.
