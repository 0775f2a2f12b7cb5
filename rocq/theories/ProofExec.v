(** * Lemmas about the execution of statements *)
From Verif Require Import Base BaseFacts ModelAST SpecAST ModelRules SpecExec SpecRulesBasic.

Lemma inside_not_start n : ~ inside Start n.
Proof. intros H. remember Start as en. induction H; try discriminate. now apply IHinside. Qed.

(** Inversion of an execution of a statement of known kind. *)
Ltac xshape :=
  match goal with
  | K : loop_of ?n = Some _, E : n_shape ?n = _ |- _ =>
      unfold loop_of in K; rewrite E in K; discriminate K
  | K : isExpr ?n = true, E : n_shape ?n = _ |- _ => unfold isExpr in K; rewrite E in K; discriminate K
  end.
Ltac xinv H := inversion H; subst; try congruence; try (exfalso; xshape); try (exfalso; eapply inside_not_start; eassumption).

Section E.
  Context {st : Type} (atom : node -> st -> value -> st -> Prop) (select : node -> st -> option nat -> st -> Prop).
  Notation exec := (exec atom select).
  Notation execs := (execs atom select).
  Notation rounds := (rounds atom select).
  Notation finish := (finish atom select).
  Notation eval := (eval atom).
  Notation evals := (evals atom).
  Notation head := (head atom).

  Scheme exec_mut := Minimality for SpecExec.exec Sort Prop
  with execs_mut := Minimality for SpecExec.execs Sort Prop
  with rounds_mut := Minimality for SpecExec.rounds Sort Prop
  with finish_mut := Minimality for SpecExec.finish Sort Prop.
  Combined Scheme exec_all from exec_mut, execs_mut, rounds_mut, finish_mut.

  Lemma throw_no_value n e s b s' : n_shape n = CXXThrowExpr e -> ~ eval n s (Truth b) s'.
  Proof.
    intros E H. inversion H; subst; try congruence.
    apply H0. unfold structured. now rewrite E.
  Qed.

  Lemma execs_normal block i l s t s' : execs block i l Start s t Normal s' ->
    forall m, In m l -> exists s1 t1 s2, exec m Start s1 t1 Normal s2.
  Proof.
    revert i s t s'. induction l as [|a l IH]; intros i s t s' H m Hm; [destruct Hm|].
    xinv H. destruct Hm as [->|Hm]; eauto.
  Qed.

  Lemma jump_not_normal n : always_jumps n -> own_labels_only n -> forall en s t s',
    en = Start \/ inside en n -> ~ exec n en s t Normal s'.
  Proof.
    induction 1; intros O en s t0 s' Hen X.
    - destruct Hen as [->|Hen].
      + destruct H as [E|[E|[[v E]|[[l E]|[[e E]|[e E]]]]]]; xinv X.
        destruct v; simpl in *; try discriminate. eapply throw_no_value; eauto.
      + assert (E0 : enterable n = [] /\ ~ labelled_statement n).
        { unfold enterable, labelled_statement.
          destruct H as [E|[E|[[v' E]|[[l' E]|[[e E]|[e E]]]]]]; rewrite E; split; auto;
            intros [(? & ? & Q)|[(? & Q)|(? & ? & Q)]]; discriminate. }
        destruct E0 as [E1 E2]. unfold labelled_statement in E2.
        inversion Hen; subst; [apply E2|apply E2|apply E2|]; eauto. rewrite E1 in *. auto.
    - destruct O as [n O|n v' m' E' O|n m' E' O]; [|replace m' with m in * by congruence|congruence].
      + destruct Hen as [->|Hen]; [|eapply O; eauto].
        xinv X. replace m0 with m in * by congruence. eapply IHalways_jumps; eauto.
        apply ol_none. intros en K. destruct en; [eapply inside_not_start; eauto| |];
          eapply (O _); eapply in_sub; eauto; try (unfold enterable; rewrite H; simpl; auto; fail);
          intros ? _ (? & ? & ? & ? & Q); congruence.
      + xinv X; replace m0 with m in * by congruence; eapply IHalways_jumps; eauto.
    - destruct O as [n O|n v' m' E' O|n m' E' O]; [|congruence|replace m' with m in * by congruence].
      + destruct Hen as [->|Hen]; [|eapply O; eauto].
        xinv X. replace m0 with m in * by congruence. eapply IHalways_jumps; eauto.
        apply ol_none. intros en K. destruct en; [eapply inside_not_start; eauto| |];
          eapply (O _); eapply in_sub; eauto; try (unfold enterable; rewrite H; simpl; auto; fail);
          intros ? _ (? & ? & ? & ? & Q); congruence.
      + xinv X; replace m0 with m in * by congruence; eapply IHalways_jumps; eauto.
    - destruct O as [n O|n v' m' E' O|n m' E' O]; [|congruence|congruence].
      destruct Hen as [->|Hen]; [|eapply O; eauto].
      xinv X. replace l0 with l in * by congruence.
      destruct (execs_normal _ _ _ _ _ _ H3 m H0) as (s1 & t1 & s2 & K).
      eapply IHalways_jumps; [|left; reflexivity|exact K].
      apply ol_none. intros en L. apply (O en). eapply in_sub; eauto.
      + unfold enterable. now rewrite H.
      + intros ? _ (? & ? & ? & ? & Q). congruence.
    - destruct O as [n O|n v' m' E' O|n m' E' O]; [|congruence|congruence].
      destruct Hen as [->|Hen]; [|eapply O; eauto].
      assert (O1 : own_labels_only t).
      { apply ol_none. intros en L. apply (O en). eapply in_sub; eauto.
        - unfold enterable. rewrite H. simpl; auto.
        - intros ? _ (? & ? & ? & ? & Q). congruence. }
      assert (O2 : own_labels_only e).
      { apply ol_none. intros en L. apply (O en). eapply in_sub; eauto.
        - unfold enterable. rewrite H. simpl; auto.
        - intros ? _ (? & ? & ? & ? & Q). congruence. }
      xinv X.
      + replace m with t in * by congruence. eapply IHalways_jumps1; eauto.
      + replace e0 with e in * by congruence. eapply IHalways_jumps2; eauto.
  Qed.

  (** Position [j] of [block] is behind a jump. *)
  Definition cut_off (block : node) (j : nat) : Prop :=
    exists i l p, j = S i /\ n_shape block = CompoundStmt l /\ nth_error l i = Some p
    /\ always_jumps p /\ own_labels_only p.
  Definition clean (t : list event) : Prop := forall b i, In (b, i) t -> ~ cut_off b i.
  Lemma clean_nil : clean []. Proof. intros b i []. Qed.
  Lemma clean_app t1 t2 : clean t1 -> clean t2 -> clean (t1 ++ t2).
  Proof. intros H1 H2 b i H. apply in_app_or in H as [H|H]; eauto. Qed.
  Lemma clean_cons b i t : ~ cut_off b i -> clean t -> clean ((b, i) :: t).
  Proof. intros H1 H2 b' i' [[= <- <-]|H]; eauto. Qed.

  Lemma cut_off_step block pre m l en s t s' :
    n_shape block = CompoundStmt (pre ++ m :: l) -> en = Start \/ inside en m ->
    exec m en s t Normal s' -> ~ cut_off block (S (length pre)).
  Proof.
    intros E Hen X (i & l' & p & Hj & E' & Hn & J & O). injection Hj as <-.
    assert (l' = pre ++ m :: l) as -> by congruence.
    rewrite nth_error_app2, Nat.sub_diag in Hn by lia. cbn in Hn. injection Hn as ->.
    eapply jump_not_normal; eauto.
  Qed.

  Lemma exec_clean :
    (forall n en s t o s', exec n en s t o s' -> clean t)
    /\ (forall block i l en s t o s', execs block i l en s t o s' ->
         forall pre, length pre = i -> n_shape block = CompoundStmt (pre ++ l) ->
         (en = Start -> ~ cut_off block i) -> clean t)
    /\ (forall L ph s t o s', rounds L ph s t o s' -> clean t)
    /\ (forall f o s t o' s', finish f o s t o' s' -> clean t).
  Proof.
    apply exec_all; intros; auto using clean_nil, clean_app.
    - apply (H1 []); auto. intros _ (i & l' & p & Hj & _). discriminate.
    - subst i. apply clean_cons; [auto|]. apply clean_app; auto.
      apply (H2 (pre ++ [m])).
      + rewrite app_length. simpl. lia.
      + rewrite <- app_assoc. exact H4.
      + intros _. eapply cut_off_step; eauto.
    - apply clean_cons; auto.
    - subst i. apply (H2 (pre ++ [m])).
      + rewrite app_length. simpl. lia.
      + now rewrite <- app_assoc.
      + intros ->. congruence.
    - subst i. apply clean_app; auto. apply (H3 (pre ++ [m])).
      + rewrite app_length. simpl. lia.
      + now rewrite <- app_assoc.
      + intros _. eapply cut_off_step; [exact H5| |exact H0]. auto.
  Qed.
  Lemma run_clean body en s t o s' : run atom select body en s t o s' -> clean t.
  Proof. induction 1; [|apply clean_app; auto]; eapply (proj1 exec_clean); eauto. Qed.
End E.

Section Eq.
  Context {st : Type} (atom : node -> st -> value -> st -> Prop) (select : node -> st -> option nat -> st -> Prop).
  Notation exec := (exec atom select).
  Notation execs := (execs atom select).
  Notation eval := (eval atom).
  Notation evals := (evals atom).
  Notation head := (head atom).
  Notation does := (does atom select).

  Lemma evals_cut pre s : pre <> [] -> evals pre s (Fails ACut) s.
  Proof. destruct pre; intros H; [congruence|]. apply es_fails, ev_cut. Qed.
  Lemma head_cut pre c s : head pre (Some c) s (Fails ACut) s.
  Proof.
    destruct pre as [|a pre].
    - eapply hd_cond; [apply es_nil|apply ev_cut].
    - apply hd_fails, evals_cut. discriminate.
  Qed.
  Lemma head_nil c s v s' : head [] (Some c) s v s' <-> eval c s v s'.
  Proof.
    split.
    - inversion 1; subst; [inversion H0|]. inversion H1; subst; auto.
    - intros H. eapply hd_cond; [apply es_nil|exact H].
  Qed.
  Lemma eval_and n c c' s v s' : n_shape n = BinaryOperator BO_LAnd c c' ->
    (eval n s v s' <-> (eval c s v s' /\ v <> Truth true) \/ exists s1, eval c s (Truth true) s1 /\ eval c' s1 v s').
  Proof.
    intros E. split.
    - inversion 1; subst; try congruence.
      + exfalso. apply H0. unfold structured. now rewrite E.
      + left. split; [apply ev_cut|discriminate].
      + replace l with c in * by congruence. auto.
      + replace l with c in * by congruence. replace r with c' in * by congruence. eauto.
    - intros [[H1 H2]|(s1 & H1 & H2)]; [eapply ev_and_left|eapply ev_and_right]; eauto.
  Qed.
  Lemma head_and pre n c c' s v s' : n_shape n = BinaryOperator BO_LAnd c c' ->
    (head pre (Some n) s v s' <-> (head pre (Some c) s v s' /\ v <> Truth true)
       \/ exists s1, head pre (Some c) s (Truth true) s1 /\ eval c' s1 v s').
  Proof.
    intros E. split.
    - inversion 1; subst.
      + left. split; [now apply hd_fails|discriminate].
      + match goal with K : SpecExec.eval _ n _ _ _ |- _ => apply (eval_and _ _ _ _ _ _ E) in K as [[A B]|(x & A & B)] end.
        * left. split; auto. eapply hd_cond; eauto.
        * right. exists x. split; auto. eapply hd_cond; eauto.
    - intros [[A B]|(s1 & A & B)].
      + inversion A; subst; [now apply hd_fails|]. eapply hd_cond; eauto.
        apply (eval_and _ _ _ _ _ _ E). auto.
      + inversion A; subst. eapply hd_cond; eauto. apply (eval_and _ _ _ _ _ _ E). eauto.
  Qed.

  Lemma does_if n pre c t e s o s' : n_shape n = IfStmt pre c t e ->
    (does n Start s o s' <->
       (exists a, o = Abrupt a /\ head pre (Some c) s (Fails a) s')
       \/ (exists s1, head pre (Some c) s (Truth true) s1 /\ does t Start s1 o s')
       \/ (exists s1, head pre (Some c) s (Truth false) s1 /\
             match e with Some e => does e Start s1 o s' | None => o = Normal /\ s1 = s' end)).
  Proof.
    intros E. split.
    - intros [tr X]. xinv X.
      + left. exists ACut. split; auto. apply head_cut.
      + left. exists a. split; auto. congruence.
      + right. left. exists s1. split; [congruence|]. replace t with m by congruence. now exists tr.
      + right. right. exists s1. split; [congruence|].
        replace e with (Some e0) by congruence. now exists tr.
      + right. right. exists s'. split; [congruence|]. replace e with (@None node) by congruence. auto.
    - intros [(a & -> & H)|[(s1 & H & tr & X)|(s1 & H & X)]].
      + exists []. eapply x_if_fails; eauto.
      + exists tr. eapply x_if_true; eauto.
      + destruct e as [e|].
        * destruct X as [tr X]. exists tr. eapply x_if_false; eauto.
        * destruct X as [-> ->]. exists []. eapply x_if_none; eauto.
  Qed.
  Lemma does_if_into n pre c t e en s o s' : n_shape n = IfStmt pre c t e -> en <> Start ->
    (does n en s o s' <->
       (o = Abrupt ACut /\ s' = s) \/ (inside en t /\ does t en s o s')
       \/ (exists e', e = Some e' /\ inside en e' /\ does e' en s o s')).
  Proof.
    intros E Hen. split.
    - intros [tr X]. xinv X.
      + auto.
      + right. left. replace t with m by congruence. split; auto. now exists tr.
      + right. right. exists e0. split; [congruence|]. split; auto. now exists tr.
    - intros [[-> ->]|[[I (tr & X)]|(e' & -> & I & tr & X)]].
      + exists []. apply x_cut.
      + exists tr. eapply x_if_into_then; eauto.
      + exists tr. eapply x_if_into_else; eauto.
  Qed.

  Lemma inside_block b m en : n_shape b = CompoundStmt [m] -> (inside en b <-> inside en m).
  Proof.
    intros E. split.
    - inversion 1; subst; try congruence. unfold enterable in H0. rewrite E in H0.
      destruct H0 as [->|[]]. auto.
    - intros H. eapply in_sub; eauto.
      + unfold enterable. rewrite E. simpl; auto.
      + intros i _ (? & ? & ? & ? & Q). congruence.
  Qed.
  Lemma inside_if n pre c t e en : n_shape n = IfStmt pre c t e ->
    (inside en n <-> inside en t \/ exists e', e = Some e' /\ inside en e').
  Proof.
    intros E. split.
    - inversion 1; subst; try congruence. unfold enterable in H0. rewrite E in H0.
      destruct H0 as [->|H0]; auto. destruct e; simpl in H0; [|tauto]. destruct H0 as [->|[]]. eauto.
    - intros H. assert (Q : forall i, en = AtCase i -> ~ is_switch n) by (intros i _ (? & ? & ? & ? & Q); congruence).
      destruct H as [H|(e' & -> & H)].
      + apply in_sub with (m := t); auto. unfold enterable. rewrite E. simpl; auto.
      + apply in_sub with (m := e'); auto. unfold enterable. rewrite E. simpl; auto.
  Qed.
  Lemma does_cut n en s : does n en s (Abrupt ACut) s.
  Proof. exists []. apply x_cut. Qed.
  Lemma does_block b m en s o s' : n_shape b = CompoundStmt [m] -> en = Start \/ inside en m ->
    (does b en s o s' <-> does m en s o s').
  Proof.
    intros E Hen. split.
    - intros [tr X]. xinv X; [apply does_cut|]. replace l with [m] in * by congruence.
      match goal with K : SpecExec.execs _ _ _ _ _ _ _ _ _ _ |- _ => inversion K; subst end;
        try (now eexists; eauto);
        try (destruct Hen; exfalso; auto; fail);
        (match goal with K : SpecExec.execs _ _ _ _ [] _ _ _ _ _ |- _ => inversion K; subst end; eexists; eauto).
    - intros [tr X]. destruct Hen as [->|Hen].
      + destruct o as [|a].
        * eexists. eapply x_compound; [exact E|]. eapply xs_next; [exact X|]. apply xs_nil.
        * eexists. eapply x_compound; [exact E|]. apply xs_abrupt. exact X.
      + destruct o as [|a].
        * eexists. eapply x_compound; [exact E|]. eapply xs_enter; [auto|exact X|]. apply xs_nil.
        * eexists. eapply x_compound; [exact E|]. apply xs_enter_abrupt; eauto.
  Qed.

  Lemma merge_equivalent n p c t m c' t' k cc :
    n_shape n = IfStmt p c t None -> (t = m \/ n_shape t = CompoundStmt [m]) ->
    n_shape m = IfStmt [] c' t' None ->
    n_shape k = IfStmt p cc t' None -> n_shape cc = BinaryOperator BO_LAnd c c' ->
    equivalent atom select n k.
  Proof.
    intros En Et Em Ek Ec en s o s'.
    assert (T : forall en s o s', en = Start \/ inside en m -> (does t en s o s' <-> does m en s o s')).
    { destruct Et as [->|Et]; [reflexivity|]. intros. now apply does_block. }
    assert (I : forall en, inside en t <-> inside en m).
    { destruct Et as [->|Et]; [reflexivity|]. intros. now apply inside_block. }
    assert (D : en = Start \/ en <> Start) by (destruct en; auto; right; discriminate).
    destruct D as [->|D].
    - rewrite (does_if n _ _ _ _ _ _ _ En), (does_if k _ _ _ _ _ _ _ Ek). setoid_rewrite (T Start); auto.
      setoid_rewrite (does_if m _ _ _ _ _ _ _ Em). setoid_rewrite head_nil.
      setoid_rewrite (head_and p cc c c' _ _ _ Ec). split.
      + intros [(a & -> & H)|[(s1 & H & [(a & -> & K)|[(s2 & K & Q)|(s2 & K & -> & <-)]])|(s1 & H & -> & <-)]].
        * left. exists a. split; auto. left. split; auto. discriminate.
        * left. exists a. split; eauto.
        * right. left. exists s2. split; eauto.
        * right. right. exists s2. split; eauto.
        * right. right. exists s1. split; auto. left. split; auto. discriminate.
      + intros [(a & -> & [[H _]|(s1 & H & K)])|[(s2 & [[H Q]|(s1 & H & K)] & X)|(s2 & [[H _]|(s1 & H & K)] & -> & <-)]].
        * left. eauto.
        * right. left. exists s1. split; eauto.
        * congruence.
        * right. left. exists s1. split; auto. right. left. eauto.
        * right. right. eauto.
        * right. left. exists s1. split; auto. right. right. eauto.
    - rewrite (does_if_into n _ _ _ _ _ _ _ _ En D), (does_if_into k _ _ _ _ _ _ _ _ Ek D).
      split.
      + intros [H|[[H X]|(e & [=] & _)]]; auto. apply I in H. apply T in X; auto.
        apply (does_if_into m _ _ _ _ _ _ _ _ Em D) in X as [X|[X|(e & [=] & _)]]; auto.
      + intros [H|[[H X]|(e & [=] & _)]]; auto. right. left.
        assert (inside en m) by (apply (inside_if m _ _ _ _ en Em); auto).
        split; [now apply I|]. apply T; auto. apply (does_if_into m _ _ _ _ _ _ _ _ Em D). auto.
  Qed.

  (** Loops made of the same parts behave alike. *)
  Lemma same_loop n m L en s t o s' : loop_of n = Some L -> loop_of m = Some L -> exec n en s t o s' -> exec m en s t o s'.
  Proof.
    intros En Em X. inversion X; subst; try (match goal with E : n_shape n = _ |- _ => unfold loop_of in En; rewrite E in En; discriminate end).
    - apply x_cut.
    - exfalso. unfold loop_of in En. unfold isExpr in *. destruct (n_shape n); discriminate.
    - replace L0 with L in * by congruence. eapply x_loop; eauto.
    - replace L0 with L in * by congruence. eapply x_loop_fails; eauto.
    - replace L0 with L in * by congruence. eapply x_loop_into; eauto.
  Qed.
  Lemma eval_paren n e s v s' : n_shape n = ParenExpr e -> (eval n s v s' <-> eval e s v s').
  Proof.
    intros E. split.
    - inversion 1; subst; try congruence; [|apply ev_cut].
      exfalso. match goal with K : ~ structured _ |- _ => apply K end. unfold structured. now rewrite E.
    - intros H. eapply ev_paren; eauto.
  Qed.
  Lemma eval_parens n e s v s' : parenthesised n e -> (eval n s v s' <-> eval e s v s').
  Proof. induction 1; [reflexivity|]. now rewrite (eval_paren n m) by auto. Qed.
  Lemma eval_not n e s v s' : n_shape n = UnaryOperator UO_LNot e ->
    (eval n s v s' <-> exists w, eval e s w s' /\ v = match w with Truth b => Truth (negb b) | Fails a => Fails a end).
  Proof.
    intros E. split.
    - inversion 1; subst; try congruence.
      + exfalso. match goal with K : ~ structured _ |- _ => apply K end. unfold structured. now rewrite E.
      + exists (Fails ACut). split; auto. apply ev_cut.
      + exists (Truth b). split; congruence.
      + exists (Fails a). split; congruence.
    - intros ([b|a] & H & ->); [eapply ev_not|eapply ev_not_fails]; eauto.
  Qed.
End Eq.
