(** * Changing statements in place *)
From Verif Require Import Base BaseFacts ModelAST ModelRules SpecAST SpecExec SpecRulesBasic SpecRulesConvention SpecRulesRedundant
  SpecAdvice ProofExec ProofExecSeq.
Local Arguments lit : simpl never.

Section C.
  Context {st : Type} (atom : node -> st -> value -> st -> Prop) (select : node -> st -> option nat -> st -> Prop).
  Notation exec := (exec atom select).
  Notation execs := (execs atom select).
  Notation rounds := (rounds atom select).
  Notation finish := (finish atom select).
  Notation eval := (eval atom).
  Notation evals := (evals atom).
  Notation head := (head atom).
  Notation does := (does atom select).
  Notation dl := (dl atom select).

  (** Expressions and statements that cannot be told apart by runs that end. *)
  Definition eagree (a b : node) : Prop := forall s v s', v <> Fails ACut -> (eval a s v s' <-> eval b s v s').
  Definition agree (a b : node) : Prop :=
    (forall en, inside en a <-> inside en b)
    /\ forall en s o s', o <> Abrupt ACut -> (does a en s o s' <-> does b en s o s').
  Inductive oagree : option node -> option node -> Prop :=
  | og_none : oagree None None
  | og_some : forall a b, agree a b -> oagree (Some a) (Some b).
  Inductive eoagree : option node -> option node -> Prop :=
  | eog_none : eoagree None None
  | eog_some : forall a b, eagree a b -> eoagree (Some a) (Some b).
  Lemma eagree_refl a : eagree a a. Proof. intros s v s' _. reflexivity. Qed.
  Lemma eagree_sym a b : eagree a b -> eagree b a. Proof. intros H s v s' N. symmetry. auto. Qed.
  Lemma agree_refl a : agree a a. Proof. split; intros; reflexivity. Qed.
  Lemma agree_sym a b : agree a b -> agree b a. Proof. intros [I H]. split; intros; symmetry; auto. Qed.
  Lemma agree_trans a b c : agree a b -> agree b c -> agree a c.
  Proof. intros [I H] [J K]. split; intros; [now rewrite I|]. now rewrite H, K. Qed.
  Lemma oagree_sym a b : oagree a b -> oagree b a. Proof. intros []; constructor. now apply agree_sym. Qed.
  Lemma eoagree_sym a b : eoagree a b -> eoagree b a. Proof. intros []; constructor. now apply eagree_sym. Qed.
  Lemma equivalent_agree a b : (forall en, inside en a <-> inside en b) -> equivalent atom select a b -> agree a b.
  Proof. intros I E. split; auto. Qed.

  Lemma agree_exec a b (B : forall en s o s', o <> Abrupt ACut -> (does a en s o s' <-> does b en s o s')) en s t o s' :
    exec a en s t o s' -> o <> Abrupt ACut -> exists t', exec b en s t' o s'.
  Proof. intros X N. apply (B en s o s' N). eexists; eauto. Qed.

  (** ** Expressions *)
  Ltac sym L := let K := fresh in intros K; eapply L; [..|exact K]; eauto using eagree_sym.
  Lemma and_forward n n' l l' r r' s v s' : n_shape n = BinaryOperator BO_LAnd l r -> n_shape n' = BinaryOperator BO_LAnd l' r' ->
    eagree l l' -> eagree r r' -> v <> Fails ACut -> eval n s v s' -> eval n' s v s'.
  Proof.
    intros E E' L R N X. inversion X; subst; try congruence.
    - exfalso. apply H. unfold structured. now rewrite E.
    - rewrite E in H; injection H as <- <-. eapply ev_and_left; eauto. now apply L.
    - rewrite E in H; injection H as <- <-. eapply ev_and_right; eauto; [apply L; [discriminate|]; eauto|now apply R].
  Qed.
  Lemma or_forward n n' l l' r r' s v s' : n_shape n = BinaryOperator BO_LOr l r -> n_shape n' = BinaryOperator BO_LOr l' r' ->
    eagree l l' -> eagree r r' -> v <> Fails ACut -> eval n s v s' -> eval n' s v s'.
  Proof.
    intros E E' L R N X. inversion X; subst; try congruence.
    - exfalso. apply H. unfold structured. now rewrite E.
    - rewrite E in H; injection H as <- <-. eapply ev_or_left; eauto. now apply L.
    - rewrite E in H; injection H as <- <-. eapply ev_or_right; eauto; [apply L; [discriminate|]; eauto|now apply R].
  Qed.
  Lemma not_forward n n' e e' s v s' : n_shape n = UnaryOperator UO_LNot e -> n_shape n' = UnaryOperator UO_LNot e' ->
    eagree e e' -> v <> Fails ACut -> eval n s v s' -> eval n' s v s'.
  Proof.
    intros E E' L N X. inversion X; subst; try congruence.
    - exfalso. apply H. unfold structured. now rewrite E.
    - rewrite E in H; injection H as <-. eapply ev_not; eauto. apply L; [discriminate|auto].
    - rewrite E in H; injection H as <-. eapply ev_not_fails; eauto. now apply L.
  Qed.
  Lemma paren_forward n n' e e' s v s' : n_shape n = ParenExpr e -> n_shape n' = ParenExpr e' ->
    eagree e e' -> v <> Fails ACut -> eval n s v s' -> eval n' s v s'.
  Proof.
    intros E E' L N X. rewrite (eval_paren atom n e) in X by auto. rewrite (eval_paren atom n' e') by auto. now apply L.
  Qed.
  Lemma choice_forward n n' c c' t t' f f' s v s' : n_shape n = ConditionalOperator c t f -> n_shape n' = ConditionalOperator c' t' f' ->
    eagree c c' -> eagree t t' -> eagree f f' -> v <> Fails ACut -> eval n s v s' -> eval n' s v s'.
  Proof.
    intros E E' C T F N X. inversion X; subst; try congruence.
    - exfalso. apply H. unfold structured. now rewrite E.
    - rewrite E in H; injection H as <- <- <-. eapply ev_choice; eauto; [apply C; [discriminate|eauto]|].
      destruct b; [now apply T|now apply F].
    - rewrite E in H; injection H as <- <- <-. eapply ev_choice_fails; eauto. now apply C.
  Qed.
  Lemma throw_forward n n' e e' s v s' : n_shape n = CXXThrowExpr (Some e) -> n_shape n' = CXXThrowExpr (Some e') ->
    eagree e e' -> v <> Fails ACut -> eval n s v s' -> eval n' s v s'.
  Proof.
    intros E E' L N X. inversion X; subst; try congruence.
    - exfalso. apply H. unfold structured. now rewrite E.
    - rewrite E in H; injection H as <-. eapply ev_throw; eauto. apply L; [discriminate|eauto].
    - rewrite E in H; injection H as <-. eapply ev_throw_fails; eauto. now apply L.
  Qed.
  Lemma changed_expr_agrees (X : node -> node -> Prop) n n' : (forall a b, X a b -> eagree a b) -> changed_expr X n n' -> eagree n n'.
  Proof.
    intros HX C. induction C; [apply eagree_refl|auto|..]; intros s v s' N; split; intros K.
    all: match goal with K : SpecExec.eval _ ?n _ _ _, H : n_shape ?n = _, H' : n_shape ?n' = _ |- SpecExec.eval _ ?n' _ _ _ =>
      first [eapply (and_forward n n'); eauto using eagree_sym; fail|eapply (or_forward n n'); eauto using eagree_sym; fail
            |eapply (not_forward n n'); eauto using eagree_sym; fail|eapply (paren_forward n n'); eauto using eagree_sym; fail
            |eapply (choice_forward n n'); eauto using eagree_sym; fail|eapply (throw_forward n n'); eauto using eagree_sym; fail] end.
  Qed.

  Inductive lagree : list node -> list node -> Prop :=
  | lg_nil : lagree [] []
  | lg_cons : forall a b l l', eagree a b -> lagree l l' -> lagree (a :: l) (b :: l').
  Lemma lagree_sym l l' : lagree l l' -> lagree l' l. Proof. induction 1; constructor; auto using eagree_sym. Qed.
  Lemma evals_forward l l' : lagree l l' -> forall s v s', v <> Fails ACut -> evals l s v s' -> evals l' s v s'.
  Proof.
    induction 1; intros s v s' N X; inversion X; subst; [apply es_nil|..].
    - eapply es_cons; [|eauto]. apply H; [discriminate|eauto].
    - apply es_fails. now apply H.
  Qed.
  Lemma head_forward p c c' : eoagree c c' -> forall s v s', v <> Fails ACut -> head p c s v s' -> head p c' s v s'.
  Proof.
    intros A s v s' N X. inversion X; subst; [now apply hd_fails|..].
    - inversion A; subst. eapply hd_none; eauto.
    - inversion A; subst. eapply hd_cond; eauto. now apply H2.
  Qed.

  (** ** Statements *)
  (** Statements in order. *)
  Inductive sagree : list node -> list node -> Prop :=
  | sg_nil : sagree [] []
  | sg_cons : forall a b l l', agree a b -> sagree l l' -> sagree (a :: l) (b :: l').
  Lemma sagree_sym l l' : sagree l l' -> sagree l' l. Proof. induction 1; constructor; auto using agree_sym. Qed.
  Lemma sagree_in l l' h : sagree l l' -> In h l -> exists h', In h' l' /\ agree h h'.
  Proof.
    induction 1; [intros []|]. intros [<-|I]; [exists b; split; [now left|auto]|].
    destruct (IHsagree I) as (h' & I' & A). exists h'. split; [now right|auto].
  Qed.
  Lemma dl_forward l l' : sagree l l' -> forall en s o s', o <> Abrupt ACut -> dl l en s o s' -> dl l' en s o s'.
  Proof.
    induction 1 as [|a b l l' [I D] S IH]; intros en s o s' N X; auto.
    apply dl_cons in X. apply dl_cons. destruct X as [[-> [(s1 & X & Y)|(x & -> & X)]]|[(E & NI & X)|[In [(s1 & X & Y)|(x & -> & X)]]]].
    - left. split; auto. left. exists s1. split; [apply D; [discriminate|auto]|auto].
    - left. split; auto. right. exists x. split; auto. now apply D.
    - right. left. split; auto. split; [now rewrite <- I|auto].
    - right. right. split; [now apply I|]. left. exists s1. split; [apply D; [discriminate|auto]|auto].
    - right. right. split; [now apply I|]. right. exists x. split; auto. now apply D.
  Qed.
  Lemma block_forward n n' l l' : n_shape n = CompoundStmt l -> n_shape n' = CompoundStmt l' -> sagree l l' ->
    forall en s o s', o <> Abrupt ACut -> does n en s o s' -> does n' en s o s'.
  Proof.
    intros E E' S en s o s' N X. apply (does_compound atom select n l) in X as [[-> _]|X]; auto; [congruence|].
    apply (does_compound atom select n' l'); auto. right. eapply dl_forward; eauto.
  Qed.
  Lemma block_inside n n' l l' en : n_shape n = CompoundStmt l -> n_shape n' = CompoundStmt l' -> sagree l l' ->
    inside en n -> inside en n'.
  Proof.
    intros E E' S I. apply (inside_compound n l en E) in I as (m & Im & I). destruct (sagree_in _ _ _ S Im) as (m' & Im' & A & _).
    apply (inside_compound n' l' en E'). exists m'. split; auto. now apply A.
  Qed.
  Lemma block_agree n n' l l' : n_shape n = CompoundStmt l -> n_shape n' = CompoundStmt l' -> sagree l l' -> agree n n'.
  Proof.
    intros E E' S. split.
    - intros en. split; [eapply block_inside; eauto|eapply block_inside; eauto using sagree_sym].
    - intros en s o s' N. split; [eapply block_forward; eauto|eapply block_forward; eauto using sagree_sym].
  Qed.

  Lemma if_forward n n' p c c' t t' e e' : n_shape n = IfStmt p c t e -> n_shape n' = IfStmt p c' t' e' ->
    eagree c c' -> agree t t' -> oagree e e' ->
    forall en s o s', o <> Abrupt ACut -> does n en s o s' -> does n' en s o s'.
  Proof.
    intros E E' C [TI T] EL en s o s' N [tr X].
    assert (H : forall s v s', v <> Fails ACut -> head p (Some c) s v s' -> head p (Some c') s v s') by (apply head_forward; now constructor).
    xinv X; match goal with K : n_shape n = _ |- _ => rewrite E in K; injection K as <- <- <- <- || injection K as <- <- <- -> end.
    - eexists. eapply x_if_fails; eauto. apply H; auto. congruence.
    - destruct (proj1 (T Start s1 o s' N)) as [tr' X']; [eexists; eauto|]. eexists. eapply x_if_true; eauto. apply H; auto. discriminate.
    - inversion EL as [|a b [_ D]]; subst. destruct (proj1 (D Start s1 o s' N)) as [tr' X']; [eexists; eauto|].
      eexists. eapply x_if_false; eauto. apply H; auto. discriminate.
    - inversion EL; subst. eexists. eapply x_if_none; eauto. apply H; auto. discriminate.
    - destruct (proj1 (T en s o s' N)) as [tr' X']; [eexists; eauto|]. eexists. eapply x_if_into_then; eauto. now apply TI.
    - inversion EL as [|a b [I D]]; subst. destruct (proj1 (D en s o s' N)) as [tr' X']; [eexists; eauto|].
      eexists. eapply x_if_into_else; eauto. now apply I.
  Qed.
  Lemma if_inside_forward n n' p c c' t t' e e' en : n_shape n = IfStmt p c t e -> n_shape n' = IfStmt p c' t' e' ->
    agree t t' -> oagree e e' -> inside en n -> inside en n'.
  Proof.
    intros E E' [T _] EL I. apply (inside_if atom select n p c t e en E) in I. apply (inside_if atom select n' p c' t' e' en E').
    destruct I as [I|(m & -> & I)]; [left; now apply T|]. inversion EL as [|a b [J _]]; subst. right. eexists. split; eauto. now apply J.
  Qed.
  Lemma if_agree n n' p c c' t t' e e' : n_shape n = IfStmt p c t e -> n_shape n' = IfStmt p c' t' e' ->
    eagree c c' -> agree t t' -> oagree e e' -> agree n n'.
  Proof.
    intros E E' C T EL. split.
    - intros en. split; [eapply (if_inside_forward n n'); eauto|eapply (if_inside_forward n' n); eauto using agree_sym, oagree_sym].
    - intros en s o s' N. split; [eapply (if_forward n n'); eauto|eapply (if_forward n' n); eauto using agree_sym, oagree_sym, eagree_sym].
  Qed.

  (** Loops *)
  Definition loops_agree (L L' : loopparts) : Prop :=
    lp_setup L' = lp_setup L /\ lp_pre L' = lp_pre L /\ lp_bodyFirst L' = lp_bodyFirst L
    /\ eoagree (lp_test L) (lp_test L') /\ lagree (lp_step L) (lp_step L') /\ agree (lp_body L) (lp_body L').
  Lemma loops_sym L L' : loops_agree L L' -> loops_agree L' L.
  Proof. intros (A & B & C & D & E & F). split; [auto|]. split; [auto|]. split; [auto|]. split; [now apply eoagree_sym|]. split; [now apply lagree_sym|now apply agree_sym]. Qed.
  Lemma rounds_forward L ph s t o s' : rounds L ph s t o s' -> forall L', loops_agree L L' -> o <> Abrupt ACut ->
    exists t', rounds L' ph s t' o s'.
  Proof.
    intros H. induction H; intros L' A N;
      assert (HF : forall s v s', v <> Fails ACut -> head (lp_pre L) (lp_test L) s v s' -> head (lp_pre L') (lp_test L') s v s')
        by (destruct A as (_ & -> & _ & T & _); apply head_forward; exact T);
      assert (BF : forall en s o s', o <> Abrupt ACut -> does (lp_body L) en s o s' -> does (lp_body L') en s o s')
        by (destruct A as (_ & _ & _ & _ & _ & B); intros; now apply B);
      assert (SF : forall s v s', v <> Fails ACut -> evals (lp_step L) s v s' -> evals (lp_step L') s v s')
        by (destruct A as (_ & _ & _ & _ & S & _); now apply evals_forward).
    - eexists. apply r_fails. apply HF; auto. congruence.
    - eexists. apply r_done. apply HF; auto. discriminate.
    - destruct (IHrounds L' A N) as [t' X]. eexists. eapply r_again; eauto. apply HF; eauto. discriminate.
    - destruct (IHrounds L' A N) as [t' X]. destruct (BF en s o1 s1) as [t'' Y]; [destruct H0 as [->| ->]; discriminate|eexists; eauto|].
      eexists. eapply r_body; eauto.
    - destruct (BF en s (Abrupt ABreak) s') as [t'' Y]; [discriminate|eexists; eauto|]. eexists. eapply r_break; eauto.
    - destruct (BF en s (Abrupt a) s' N) as [t'' Y]; [eexists; eauto|]. eexists. eapply r_abrupt; eauto.
    - destruct (IHrounds L' A N) as [t' X]. eexists. eapply r_step; eauto. apply SF; eauto. discriminate.
    - eexists. apply r_step_fails. apply SF; auto. congruence.
  Qed.
  Lemma loop_not_expr n L : loop_of n = Some L -> isExpr n = false.
  Proof. unfold loop_of, isExpr. destruct (n_shape n); try discriminate; reflexivity. Qed.
  Lemma loop_forward n n' L L' : loop_of n = Some L -> loop_of n' = Some L' -> loops_agree L L' ->
    forall en s o s', o <> Abrupt ACut -> does n en s o s' -> does n' en s o s'.
  Proof.
    intros E E' A en s o s' N [t X].
    inversion X; subst; try congruence; try (match goal with K : n_shape n = _ |- _ => unfold loop_of in E; rewrite K in E; discriminate end).
    - rewrite (loop_not_expr _ _ E) in *. discriminate.
    - replace L0 with L in * by congruence. destruct (rounds_forward _ _ _ _ _ _ H1 L' A N) as [t' Y].
      destruct A as (S & _ & B & _). eexists. eapply x_loop; eauto; [rewrite S; eauto|rewrite B; eauto].
    - replace L0 with L in * by congruence. destruct A as (S & _ & B & _). eexists. eapply x_loop_fails; eauto. rewrite S; eauto.
    - replace L0 with L in * by congruence. destruct (rounds_forward _ _ _ _ _ _ H1 L' A N) as [t' Y].
      eexists. eapply x_loop_into; eauto. now apply A.
  Qed.
  Lemma inside_loop n L en : loop_of n = Some L -> (inside en n <-> inside en (lp_body L)).
  Proof.
    intros E. unfold loop_of in E. split.
    - inversion 1; subst; unfold enterable in *; destruct (n_shape n) eqn:S; try discriminate; try congruence;
        injection E as <-; cbn [lp_body] in *;
        match goal with H : In _ [_] |- _ => destruct H as [<-|[]]; auto end.
    - intros I. apply in_sub with (m := lp_body L); auto.
      + unfold enterable. destruct (n_shape n); try discriminate; injection E as <-; now left.
      + intros i _ (? & ? & ? & ? & Q). rewrite Q in E. discriminate.
  Qed.
  Lemma loop_agree n n' L L' : loop_of n = Some L -> loop_of n' = Some L' -> loops_agree L L' -> agree n n'.
  Proof.
    intros E E' A. split.
    - intros en. rewrite (inside_loop n L en E), (inside_loop n' L' en E'). apply A.
    - intros en s o s' N. split; [eapply (loop_forward n n'); eauto|eapply (loop_forward n' n); eauto using loops_sym].
  Qed.

  (** Switches *)
  Lemma switch_forward n n' p c c' b b' x : n_shape n = SwitchStmt p c b x -> n_shape n' = SwitchStmt p c' b' x ->
    (forall s i s', select n s i s' -> select n' s i s') -> eagree c c' -> agree b b' ->
    forall en s o s', o <> Abrupt ACut -> does n en s o s' -> does n' en s o s'.
  Proof.
    intros E E' S C [BI B] en s o s' N [tr X].
    assert (H : forall s v s', v <> Fails ACut -> head p (Some c) s v s' -> head p (Some c') s v s') by (apply head_forward; now constructor).
    xinv X; match goal with K : n_shape n = _ |- _ => rewrite E in K; injection K as <- <- <- <- end.
    - eexists. eapply x_switch_fails; eauto. apply H; auto. congruence.
    - eexists. eapply x_switch_none; eauto. apply H; eauto. discriminate.
    - assert (N0 : o0 <> Abrupt ACut) by (intros ->; now apply N).
      match goal with K : SpecExec.exec _ _ b (AtCase _) _ _ _ _ |- _ => rename K into Y end.
      destruct (agree_exec _ _ B _ _ _ _ _ Y N0) as [t' Y']. eexists. eapply x_switch; eauto; [apply H; eauto; discriminate|now apply BI].
    - assert (N0 : o0 <> Abrupt ACut) by (intros ->; now apply N).
      match goal with K : SpecExec.exec _ _ b (AtLabel _) _ _ _ _ |- _ => rename K into Y end.
      destruct (agree_exec _ _ B _ _ _ _ _ Y N0) as [t' Y']. eexists. eapply x_switch_into; eauto. now apply BI.
  Qed.
  Lemma inside_switch n p c b x en : n_shape n = SwitchStmt p c b x -> (inside en n <-> (exists l, en = AtLabel l) /\ inside en b).
  Proof.
    intros E. split.
    - inversion 1; subst; try congruence. unfold enterable in *. rewrite E in *. destruct H0 as [<-|[]]. split; auto.
      destruct en; eauto; [exfalso; eapply inside_not_start; eauto|]. exfalso. eapply H1; eauto. do 4 eexists; eauto.
    - intros [(l & ->) I]. apply in_sub with (m := b); auto; [unfold enterable; rewrite E; now left|discriminate].
  Qed.
  Lemma switch_agree n n' p c c' b b' x : n_shape n = SwitchStmt p c b x -> n_shape n' = SwitchStmt p c' b' x ->
    (forall s i s', select n s i s' <-> select n' s i s') -> eagree c c' -> agree b b' -> agree n n'.
  Proof.
    intros E E' S C B. split.
    - intros en. rewrite (inside_switch n _ _ _ _ en E), (inside_switch n' _ _ _ _ en E'), (proj1 B). reflexivity.
    - intros en s o s' N. split; [eapply (switch_forward n n'); eauto; apply S|eapply (switch_forward n' n); eauto using agree_sym, eagree_sym; apply S].
  Qed.

  (** Labels *)
  Lemma case_agree n n' v b b' : n_shape n = CaseStmt v b -> n_shape n' = CaseStmt v b' -> n_id n' = n_id n -> agree b b' -> agree n n'.
  Proof.
    assert (F : forall n n' b b', n_shape n = CaseStmt v b -> n_shape n' = CaseStmt v b' -> n_id n' = n_id n -> agree b b' ->
      forall en s o s', o <> Abrupt ACut -> does n en s o s' -> does n' en s o s').
    { clear. intros n n' b b' E E' Id [BI B] en s o s' N [tr X].
      xinv X; match goal with K : n_shape n = _ |- _ => rewrite E in K; injection K as <- <- end;
        match goal with K : SpecExec.exec _ _ b _ _ _ _ _ |- _ => destruct (agree_exec _ _ B _ _ _ _ _ K N) as [t' Y] end; eexists.
      - eapply x_case; eauto.
      - rewrite <- Id. eapply x_case_here; eauto.
      - eapply x_case_sub; eauto. now apply BI. }
    assert (G : forall n n' b b', n_shape n = CaseStmt v b -> n_shape n' = CaseStmt v b' -> n_id n' = n_id n -> agree b b' ->
      forall en, inside en n -> inside en n').
    { clear. intros n n' b b' E E' Id [BI B] en I. inversion I; subst; try congruence.
      - rewrite <- Id. eapply in_case; eauto.
      - unfold enterable in *. rewrite E in *. destruct H as [<-|[]]. apply in_sub with (m := b'); [unfold enterable; rewrite E'; now left| |now apply BI].
        intros i _ (? & ? & ? & ? & Q). congruence. }
    intros E E' Id A. split.
    - intros en. split; [eapply (G n n'); eauto|eapply (G n' n); eauto using agree_sym].
    - intros en s o s' N. split; [eapply (F n n'); eauto|eapply (F n' n); eauto using agree_sym].
  Qed.
  Lemma default_agree n n' b b' : n_shape n = DefaultStmt b -> n_shape n' = DefaultStmt b' -> n_id n' = n_id n -> agree b b' -> agree n n'.
  Proof.
    assert (F : forall n n' b b', n_shape n = DefaultStmt b -> n_shape n' = DefaultStmt b' -> n_id n' = n_id n -> agree b b' ->
      forall en s o s', o <> Abrupt ACut -> does n en s o s' -> does n' en s o s').
    { clear. intros n n' b b' E E' Id [BI B] en s o s' N [tr X].
      xinv X; match goal with K : n_shape n = _ |- _ => rewrite E in K; injection K as <- end;
        match goal with K : SpecExec.exec _ _ b _ _ _ _ _ |- _ => destruct (agree_exec _ _ B _ _ _ _ _ K N) as [t' Y] end; eexists.
      - eapply x_default; eauto.
      - rewrite <- Id. eapply x_default_here; eauto.
      - eapply x_default_sub; eauto. now apply BI. }
    assert (G : forall n n' b b', n_shape n = DefaultStmt b -> n_shape n' = DefaultStmt b' -> n_id n' = n_id n -> agree b b' ->
      forall en, inside en n -> inside en n').
    { clear. intros n n' b b' E E' Id [BI B] en I. inversion I; subst; try congruence.
      - rewrite <- Id. eapply in_default; eauto.
      - unfold enterable in *. rewrite E in *. destruct H as [<-|[]]. apply in_sub with (m := b'); [unfold enterable; rewrite E'; now left| |now apply BI].
        intros i _ (? & ? & ? & ? & Q). congruence. }
    intros E E' Id A. split.
    - intros en. split; [eapply (G n n'); eauto|eapply (G n' n); eauto using agree_sym].
    - intros en s o s' N. split; [eapply (F n n'); eauto|eapply (F n' n); eauto using agree_sym].
  Qed.
  Lemma label_agree n n' l b b' : n_shape n = LabelStmt l b -> n_shape n' = LabelStmt l b' -> agree b b' -> agree n n'.
  Proof.
    assert (F : forall n n' b b', n_shape n = LabelStmt l b -> n_shape n' = LabelStmt l b' -> agree b b' ->
      forall en s o s', o <> Abrupt ACut -> does n en s o s' -> does n' en s o s').
    { clear. intros n n' b b' E E' [BI B] en s o s' N [tr X].
      xinv X; match goal with K : n_shape n = _ |- _ => rewrite E in K; injection K as <- <- end;
        match goal with K : SpecExec.exec _ _ b _ _ _ _ _ |- _ => destruct (agree_exec _ _ B _ _ _ _ _ K N) as [t' Y] end; eexists.
      - eapply x_label; eauto.
      - eapply x_label_here; eauto.
      - eapply x_label_sub; eauto. now apply BI. }
    assert (G : forall n n' b b', n_shape n = LabelStmt l b -> n_shape n' = LabelStmt l b' -> agree b b' ->
      forall en, inside en n -> inside en n').
    { clear. intros n n' b b' E E' [BI B] en I. inversion I; subst; try congruence.
      - replace l0 with l in * by congruence. eapply in_label; eauto.
      - unfold enterable in *. rewrite E in *. destruct H as [<-|[]]. apply in_sub with (m := b'); [unfold enterable; rewrite E'; now left| |now apply BI].
        intros i _ (? & ? & ? & ? & Q). congruence. }
    intros E E' A. split.
    - intros en. split; [eapply (G n n'); eauto|eapply (G n' n); eauto using agree_sym].
    - intros en s o s' N. split; [eapply (F n n'); eauto|eapply (F n' n); eauto using agree_sym].
  Qed.

  (** Statements that no jump enters *)
  Definition closed (n : node) : Prop := enterable n = [] /\ ~ labelled_statement n.
  Lemma closed_agree n n' : closed n -> closed n' ->
    (forall en s o s', o <> Abrupt ACut -> does n en s o s' <-> does n' en s o s') -> agree n n'.
  Proof.
    intros [A B] [A' B'] H. split; auto. intros en. split; intros I; exfalso; [eapply (no_labels n)|eapply (no_labels n')]; eauto.
  Qed.
  Ltac closes := split; [unfold enterable; match goal with H : n_shape _ = _ |- _ => rewrite H end; reflexivity
    |intros [(? & ? & Q)|[(? & Q)|(? & ? & Q)]]; congruence].
  Lemma expr_agree n n' : isExpr n = true -> isExpr n' = true -> eagree n n' -> agree n n'.
  Proof.
    assert (C : forall n, isExpr n = true -> closed n).
    { clear. intros n E. unfold isExpr in E. split; [unfold enterable; destruct (n_shape n); try discriminate; reflexivity|].
      intros [(? & ? & Q)|[(? & Q)|(? & ? & Q)]]; rewrite Q in E; discriminate. }
    assert (F : forall n n', isExpr n = true -> isExpr n' = true -> eagree n n' ->
      forall en s o s', o <> Abrupt ACut -> does n en s o s' -> does n' en s o s').
    { clear. intros n n' E E' A en s o s' N [tr X].
      inversion X; subst; try congruence; unfold isExpr in E;
        try (match goal with K : n_shape n = _ |- _ => rewrite K in E; discriminate end);
        try (match goal with K : loop_of n = _ |- _ => unfold loop_of in K; destruct (n_shape n); discriminate end).
      eexists. eapply x_expr; eauto. apply A; auto. intros ->. now apply N. }
    intros E E' A. apply closed_agree; auto. intros en s o s' N. split; [now apply (F n n')|apply (F n' n); auto using eagree_sym].
  Qed.
  Lemma return_agree n n' e e' : n_shape n = ReturnStmt (Some e) -> n_shape n' = ReturnStmt (Some e') -> eagree e e' -> agree n n'.
  Proof.
    assert (F : forall n n' e e', n_shape n = ReturnStmt (Some e) -> n_shape n' = ReturnStmt (Some e') -> eagree e e' ->
      forall en s o s', o <> Abrupt ACut -> does n en s o s' -> does n' en s o s').
    { clear. intros n n' e e' E E' A en s o s' N [tr X].
      xinv X; match goal with K : n_shape n = _ |- _ => rewrite E in K; injection K as <- end; eexists.
      - eapply x_return_value; eauto. apply A; [discriminate|auto].
      - eapply x_return_fails; eauto. apply A; auto. congruence. }
    intros E E' A. apply closed_agree; [closes|closes|]. intros en s o s' N. split; [eapply (F n n'); eauto|eapply (F n' n); eauto using eagree_sym].
  Qed.
  Lemma try_agree n n' b b' hs hs' : n_shape n = CXXTryStmt b hs -> n_shape n' = CXXTryStmt b' hs' -> agree b b' -> sagree hs hs' -> agree n n'.
  Proof.
    assert (F : forall n n' b b' hs hs', n_shape n = CXXTryStmt b hs -> n_shape n' = CXXTryStmt b' hs' -> agree b b' -> sagree hs hs' ->
      forall en s o s', o <> Abrupt ACut -> does n en s o s' -> does n' en s o s').
    { clear. intros n n' b b' hs hs' E E' [BI B] S en s o s' N [tr X].
      xinv X; match goal with K : n_shape n = _ |- _ => rewrite E in K; injection K as <- <- end.
      - match goal with K : SpecExec.exec _ _ b _ _ _ _ _ |- _ => destruct (agree_exec _ _ B _ _ _ _ _ K N) as [t' Y] end. eexists. eapply x_try; eauto.
      - destruct (proj1 (B Start s (Abrupt AThrow) s1 ltac:(discriminate))) as [t' Y]; [eexists; eassumption|].
        match goal with K : In _ hs |- _ => destruct (sagree_in _ _ _ S K) as (h' & I' & [_ H']) end.
        match goal with K : SpecExec.exec _ _ h _ _ _ _ _ |- _ => destruct (agree_exec _ _ H' _ _ _ _ _ K N) as [t'' Z] end.
        eexists. eapply x_try_caught; eauto. }
    intros E E' A S. apply closed_agree; [closes|closes|]. intros en s o s' N. split; [eapply (F n n'); eauto|eapply (F n' n); eauto using agree_sym, sagree_sym].
  Qed.
  Lemma finish_forward f f' : oagree f f' -> forall o1 s t o s', o <> Abrupt ACut -> finish f o1 s t o s' ->
    o1 <> Abrupt ACut /\ exists t', finish f' o1 s t' o s'.
  Proof.
    intros A o1 s t o s' N X. inversion X; subst.
    - inversion A; subst. split; auto. eexists. apply f_none.
    - congruence.
    - inversion A as [|a b [_ D]]; subst. split; auto. destruct (proj1 (D Start s Normal s' ltac:(discriminate))) as [t' Y]; [eexists; eassumption|].
      eexists. apply f_keeps; eauto.
    - inversion A as [|x b [_ D]]; subst. split; auto. match goal with K : SpecExec.exec _ _ _ _ _ _ _ _ |- _ => destruct (agree_exec _ _ D _ _ _ _ _ K N) as [t' Y] end.
      eexists. apply f_replaces; eauto.
  Qed.
  Lemma objc_try_agree n n' b b' hs hs' f f' : n_shape n = ObjCAtTryStmt b hs f -> n_shape n' = ObjCAtTryStmt b' hs' f' ->
    agree b b' -> sagree hs hs' -> oagree f f' -> agree n n'.
  Proof.
    assert (F : forall n n' b b' hs hs' f f', n_shape n = ObjCAtTryStmt b hs f -> n_shape n' = ObjCAtTryStmt b' hs' f' ->
      agree b b' -> sagree hs hs' -> oagree f f' ->
      forall en s o s', o <> Abrupt ACut -> does n en s o s' -> does n' en s o s').
    { clear. intros n n' b b' hs hs' f f' E E' [BI B] S FI en s o s' N [tr X].
      xinv X; match goal with K : n_shape n = _ |- _ => rewrite E in K; injection K as <- <- <- end.
      - match goal with K : SpecExec.finish _ _ _ _ _ _ _ _ |- _ => destruct (finish_forward _ _ FI _ _ _ _ _ N K) as (N1 & t2' & Y) end.
        match goal with K : SpecExec.exec _ _ b _ _ _ _ _ |- _ => destruct (agree_exec _ _ B _ _ _ _ _ K N1) as [t' Z] end. eexists. eapply x_objc_try; eauto.
      - match goal with K : SpecExec.finish _ _ _ _ _ _ _ _ |- _ => destruct (finish_forward _ _ FI _ _ _ _ _ N K) as (N1 & t2' & Y) end.
        destruct (proj1 (B Start s (Abrupt AThrow) s1 ltac:(discriminate))) as [t' Z]; [eexists; eassumption|].
        match goal with K : In _ hs |- _ => destruct (sagree_in _ _ _ S K) as (h' & I' & [_ H']) end.
        match goal with K : SpecExec.exec _ _ h _ _ _ _ _ |- _ => destruct (agree_exec _ _ H' _ _ _ _ _ K N1) as [t'' W] end.
        eexists. eapply x_objc_caught; eauto. }
    intros E E' A S G. apply closed_agree; [closes|closes|]. intros en s o s' N.
    split; [eapply (F n n'); eauto|eapply (F n' n); eauto using agree_sym, sagree_sym, oagree_sym].
  Qed.
  (** Statements around one other statement *)
  Lemma wrapped_agree (W : node -> shape node) n n' b b' :
    (forall b, (exists e, W b = CXXCatchStmt e b) \/ (exists p, W b = ObjCAtCatchStmt p b) \/ W b = ObjCAtFinallyStmt b \/ W b = ObjCAutoreleasePoolStmt b) ->
    n_shape n = W b -> n_shape n' = W b' -> agree b b' -> agree n n'.
  Proof.
    intros HW. assert (D : forall n b, n_shape n = W b -> forall en s o s', o <> Abrupt ACut ->
      (does n en s o s' <-> en = Start /\ does b Start s o s')).
    { clear n n' b b'. intros n b E en s o s' N. destruct (HW b) as [(e & K)|[(p & K)|[K|K]]]; rewrite K in E; split.
      all: try (intros [tr X]; xinv X; match goal with E1 : n_shape ?x = _, Q : n_shape ?x = _ |- _ => rewrite E1 in Q; (injection Q as -> -> || injection Q as ->) end; split; [reflexivity|eexists; eassumption]).
      all: intros [-> [tr X]]; eexists.
      - eapply x_catch; eauto.
      - eapply x_objc_catch; eauto.
      - eapply x_objc_finally; eauto.
      - eapply x_autorelease; eauto. }
    assert (C : forall n b, n_shape n = W b -> closed n).
    { clear n n' b b' D. intros n b E. destruct (HW b) as [(e & K)|[(p & K)|[K|K]]]; rewrite K in E; closes. }
    intros E E' A. apply closed_agree; [eapply C; eauto|eapply C; eauto|]. intros en s o s' N.
    rewrite (D n b E en s o s' N), (D n' b' E' en s o s' N). now rewrite (proj2 A).
  Qed.
  Lemma synchronized_agree n n' e e' b b' : n_shape n = ObjCAtSynchronizedStmt e b -> n_shape n' = ObjCAtSynchronizedStmt e' b' ->
    eagree e e' -> agree b b' -> agree n n'.
  Proof.
    assert (F : forall n n' e e' b b', n_shape n = ObjCAtSynchronizedStmt e b -> n_shape n' = ObjCAtSynchronizedStmt e' b' ->
      eagree e e' -> agree b b' -> forall en s o s', o <> Abrupt ACut -> does n en s o s' -> does n' en s o s').
    { clear. intros n n' e e' b b' E E' A [_ B] en s o s' N [tr X].
      xinv X; match goal with K : n_shape n = _ |- _ => rewrite E in K; injection K as <- <- end.
      - match goal with K : SpecExec.exec _ _ b _ _ _ _ _ |- _ => destruct (agree_exec _ _ B _ _ _ _ _ K N) as [t' Y] end. eexists. eapply x_synchronized; eauto. apply A; [discriminate|eauto].
      - eexists. eapply x_synchronized_fails; eauto. apply A; auto. congruence. }
    intros E E' A B. apply closed_agree; [closes|closes|]. intros en s o s' N.
    split; [eapply (F n n'); eauto|eapply (F n' n); eauto using agree_sym, eagree_sym].
  Qed.

  (** ** All changes together *)
  Scheme changed_mut := Minimality for SpecAdvice.changed Sort Prop
  with changed_list_mut := Minimality for SpecAdvice.changed_list Sort Prop
  with changed_else_mut := Minimality for SpecAdvice.changed_else Sort Prop.
  Combined Scheme changed_all from changed_mut, changed_list_mut, changed_else_mut.
  Lemma changed_agrees (X Y : node -> node -> Prop) : (forall a b, X a b -> eagree a b) -> (forall a b, Y a b -> agree a b) ->
    (forall n n' s i s', n_id n = n_id n' -> (select n s i s' <-> select n' s i s')) ->
    (forall n n', changed X Y n n' -> agree n n') /\ (forall l l', changed_list X Y l l' -> sagree l l')
    /\ (forall e e', changed_else X Y e e' -> oagree e e').
  Proof.
    intros HX HY HS.
    assert (HE : forall a b, changed_expr X a b -> eagree a b) by (intros; eapply changed_expr_agrees; eauto).
    apply changed_all; intros; eauto using agree_refl, expr_agree, return_agree, block_agree, if_agree, case_agree, default_agree,
      label_agree, try_agree, objc_try_agree, synchronized_agree, lg_nil, lg_cons, sg_nil, sg_cons, og_none, og_some.
    - eapply loop_agree; eauto. do 3 (split; [assumption|]). split; [|split; [|assumption]].
      + match goal with H : changed_option _ _ _ |- _ => destruct H; constructor; auto end.
      + match goal with H : changed_exprs _ _ _ |- _ => induction H; constructor; auto end.
    - eapply switch_agree; eauto.
    - eapply (wrapped_agree (CXXCatchStmt e)); eauto.
    - eapply (wrapped_agree (ObjCAtCatchStmt p)); eauto.
    - eapply (wrapped_agree ObjCAtFinallyStmt); eauto.
    - eapply (wrapped_agree ObjCAutoreleasePoolStmt); eauto 6.
  Qed.
  Lemma run_agree n n' : agree n n' -> forall en s t o s', o <> Abrupt ACut -> run atom select n en s t o s' ->
    exists t', run atom select n' en s t' o s'.
  Proof.
    intros [I D] en s t o s' N X. induction X.
    - match goal with K : SpecExec.exec _ _ _ _ _ _ _ _ |- _ => destruct (agree_exec _ _ D _ _ _ _ _ K N) as [t' Y] end. eexists. apply run_once; eauto.
    - destruct (IHX I D N) as [t' Y]. destruct (proj1 (D en s (Abrupt (AGoto l)) s1 ltac:(discriminate))) as [t'' Z]; [eexists; eassumption|].
      eexists. eapply run_goto; eauto. now apply I.
  Qed.
End C.
