(** * Property C141: what empty blocks, constant conditions, jumps out of finally and closing breaks
    mean for execution *)
From Verif Require Import Base BaseFacts ModelAST ModelRules ModelRulesBasic ModelRulesConvention SpecFilter SpecAST SpecRules SpecExec
  SpecRulesBasic SpecRulesConvention SpecAdvice ProofAST ProofRules ProofExec ProofExecSeq ProofRulesBasic ProofRulesConvention PropAST.
Local Arguments lit : simpl never.

Lemma empty_is_idle {st} (atom : node -> st -> value -> st -> Prop) select b en s t o s' :
  lone_semicolon_or_empty_block b -> exec atom select b en s t o s' ->
  s' = s /\ t = [] /\ (o = Normal \/ o = Abrupt ACut).
Proof.
  intros [E|E] X; xinv X; auto.
  match goal with H : n_shape b = CompoundStmt _, K : execs _ _ _ _ _ _ _ _ _ _ |- _ =>
    rewrite E in H; injection H as <-; inversion K; subst; auto end.
Qed.
Lemma empty_runs {st} (atom : node -> st -> value -> st -> Prop) select b s :
  lone_semicolon_or_empty_block b -> exec atom select b Start s [] Normal s.
Proof. intros [E|E]; [now apply x_null|]. eapply x_compound; eauto. apply xs_nil. Qed.
Lemma empty_not_entered b en : lone_semicolon_or_empty_block b -> ~ inside en b.
Proof.
  intros L I. inversion I; subst; destruct L as [E|E]; try congruence;
    unfold enterable in *; rewrite E in *; contradiction.
Qed.

(** ** Empty blocks *)
(** What the rules on empty blocks report does nothing. *)
Lemma L_empty_block_does_nothing : forall st (atom : node -> st -> value -> st -> Prop) select k n b s t o s',
  body_of k n b -> lone_semicolon_or_empty_block b ->
  (exec atom select b Start s t o s' -> s' = s /\ t = [] /\ (o = Normal \/ o = Abrupt ACut))
  /\ exec atom select b Start s [] Normal s.
Proof. intros. split; [now apply empty_is_idle|now apply empty_runs]. Qed.
(** An if without else and with an empty then branch only evaluates its condition. *)
Lemma L_empty_if_only_tests : forall st (atom : node -> st -> value -> st -> Prop) select n p c t s o s',
  n_shape n = IfStmt p c t None -> lone_semicolon_or_empty_block t -> o <> Abrupt ACut ->
  (does atom select n Start s o s' <-> exists v, head atom p (Some c) s v s' /\ o = out_of v).
Proof.
  intros st atom select n p c t s o s' E L N. rewrite (does_if atom select n p c t None) by auto. split.
  - intros [(a & -> & H)|[(s1 & H & tr & X)|(s1 & H & -> & <-)]].
    + exists (Fails a). auto.
    + destruct (empty_is_idle _ _ _ _ _ _ _ _ L X) as (-> & _ & [->| ->]); [|congruence]. exists (Truth true). auto.
    + exists (Truth false). auto.
  - intros ([[|]|a] & H & ->); cbn.
    + right. left. exists s'. split; auto. exists []. now apply empty_runs.
    + right. right. exists s'. auto.
    + left. exists a. auto.
Qed.
(** An empty else branch can be dropped. *)
Lemma L_empty_else_can_go : forall st (atom : node -> st -> value -> st -> Prop) select n m p c t e en s o s',
  n_shape n = IfStmt p c t (Some e) -> lone_semicolon_or_empty_block e -> n_shape m = IfStmt p c t None ->
  o <> Abrupt ACut -> (does atom select n en s o s' <-> does atom select m en s o s').
Proof.
  intros st atom select n m p c t e en s o s' En L Em N.
  assert (D : en = Start \/ en <> Start) by (destruct en; auto; right; discriminate). destruct D as [->|D].
  - rewrite (does_if atom select n p c t (Some e)), (does_if atom select m p c t None) by auto.
    split; (intros [H|[H|(s1 & H & K)]]; [auto|auto|right; right; exists s1; split; auto]).
    + destruct K as (tr & X). destruct (empty_is_idle _ _ _ _ _ _ _ _ L X) as (-> & _ & [->| ->]); auto. congruence.
    + destruct K as (-> & ->). exists []. now apply empty_runs.
  - rewrite (does_if_into atom select n p c t (Some e)), (does_if_into atom select m p c t None) by auto.
    split; (intros [(-> & _)|[H|(e' & Ee & I & H)]]; [congruence|auto|]).
    + injection Ee as <-. exfalso. eapply empty_not_entered; eauto.
    + discriminate.
Qed.
(** A switch with an empty body selects nothing. *)
Lemma L_empty_switch_selects_nothing : forall st (atom : node -> st -> value -> st -> Prop) select n p c b x s t o s',
  n_shape n = SwitchStmt p c b x -> lone_semicolon_or_empty_block b -> exec atom select n Start s t o s' ->
  t = [] /\ (o = Abrupt ACut \/ (exists a, head atom p (Some c) s (Fails a) s' /\ o = Abrupt a)
             \/ (exists v s1, head atom p (Some c) s (Truth v) s1 /\ select n s1 None s' /\ o = Normal)).
Proof.
  intros st atom select n p c b x s t o s' E L X. xinv X; auto.
  - split; auto. right. left. exists a. split; [congruence|auto].
  - split; auto. right. right. exists v, s1. split; [congruence|auto].
  - exfalso. eapply empty_not_entered; eauto.
    match goal with H : n_shape n = SwitchStmt _ _ ?b' _, I : inside _ ?b' |- _ => replace b with b' by congruence; exact I end.
Qed.
(** An empty try block never runs a handler. *)
Lemma L_empty_try_needs_no_handlers : forall st (atom : node -> st -> value -> st -> Prop) select n b hs s t o s',
  n_shape n = CXXTryStmt b hs -> lone_semicolon_or_empty_block b -> exec atom select n Start s t o s' ->
  s' = s /\ t = [] /\ (o = Normal \/ o = Abrupt ACut).
Proof.
  intros st atom select n b hs s t o s' E L X. xinv X; auto;
    match goal with H : n_shape n = CXXTryStmt ?b' _, K : exec _ _ ?b' _ _ _ _ _ |- _ =>
      assert (b' = b) by congruence; subst b'; destruct (empty_is_idle _ _ _ _ _ _ _ _ L K) as (? & ? & [?|?]) end;
    subst; auto; discriminate.
Qed.
(** Empty catch blocks swallow what is thrown: the statement then ends normally, where the
    exception was thrown, and nothing of it is left. *)
Lemma L_empty_catch_swallows : forall st (atom : node -> st -> value -> st -> Prop) select n b hs s o s',
  n_shape n = CXXTryStmt b hs -> hs <> [] ->
  (forall h, In h hs -> exists e hb, n_shape h = CXXCatchStmt e hb /\ lone_semicolon_or_empty_block hb) ->
  o <> Abrupt ACut ->
  (does atom select n Start s o s' <->
     does atom select b Start s o s' \/ (o = Normal /\ does atom select b Start s (Abrupt AThrow) s')).
Proof.
  intros st atom select n b hs s o s' E NH H N. split.
  - intros (t & X). xinv X.
    + left. exists t. congruence.
    + right. match goal with K : n_shape n = CXXTryStmt _ _ |- _ => rewrite E in K; injection K as <- <- end.
      match goal with K : In ?h hs |- _ => destruct (H h K) as (e & hb & Eh & L) end.
      match goal with K : exec _ _ ?h Start _ _ _ _ |- _ => lazymatch h with b => fail | n => fail | _ => xinv K end end.
      match goal with K : n_shape _ = CXXCatchStmt ?e' ?b', X2 : exec _ _ ?b' _ _ _ _ _ |- _ =>
        assert (b' = hb) by congruence; subst b'; destruct (empty_is_idle _ _ _ _ _ _ _ _ L X2) as (-> & _ & [->| ->]) end;
        [|congruence].
      split; auto. eexists. eassumption.
  - intros [(t & X)|(-> & t & X)].
    + exists t. eapply x_try; eauto.
    + destruct hs as [|h hs]; [congruence|]. destruct (H h (or_introl eq_refl)) as (e & hb & Eh & L).
      exists (t ++ []). eapply x_try_caught; eauto; [cbn; auto|]. eapply x_catch; eauto. now apply empty_runs.
Qed.
(** An empty finally block can be dropped. *)
Lemma L_empty_finally_can_go : forall st (atom : node -> st -> value -> st -> Prop) select n m b hs f fb s o s',
  n_shape n = ObjCAtTryStmt b hs (Some f) -> n_shape f = ObjCAtFinallyStmt fb -> lone_semicolon_or_empty_block fb ->
  n_shape m = ObjCAtTryStmt b hs None -> o <> Abrupt ACut ->
  (does atom select n Start s o s' <-> does atom select m Start s o s').
Proof.
  intros st atom select n m b hs f fb s o s' En Ef L Em N.
  assert (F1 : forall o1 s1 t o2 s2, o2 <> Abrupt ACut -> finish atom select (Some f) o1 s1 t o2 s2 -> o1 = o2 /\ s1 = s2).
  { intros o1 s1 t o2 s2 N2 F. inversion F; subst; auto;
      match goal with K : exec _ _ f _ _ _ _ _ |- _ => xinv K end; try congruence;
      match goal with K : n_shape f = ObjCAtFinallyStmt ?b', X : exec _ _ ?b' _ _ _ _ _ |- _ =>
        assert (b' = fb) by congruence; subst b'; destruct (empty_is_idle _ _ _ _ _ _ _ _ L X) as (-> & _ & [Q|Q]) end;
      split; congruence. }
  assert (F2 : forall o1 s1, o1 <> Abrupt ACut -> finish atom select (Some f) o1 s1 [] o1 s1).
  { intros o1 s1 N1. apply f_keeps; auto. eapply x_objc_finally; eauto. now apply empty_runs. }
  split; intros (t & X); xinv X.
  - match goal with K : n_shape n = _ |- _ => rewrite En in K; injection K as <- <- <- end.
    match goal with F : finish _ _ _ _ _ _ _ _ |- _ => apply F1 in F; auto; destruct F as (-> & ->) end.
    eexists. eapply x_objc_try; eauto. apply f_none.
  - match goal with K : n_shape n = _ |- _ => rewrite En in K; injection K as <- <- <- end.
    match goal with F : finish _ _ _ _ _ _ _ _ |- _ => apply F1 in F; auto; destruct F as (-> & ->) end.
    eexists. eapply x_objc_caught; eauto. apply f_none.
  - match goal with K : n_shape m = _ |- _ => rewrite Em in K; injection K as <- <- <- end.
    match goal with F : finish _ _ _ _ _ _ _ _ |- _ => inversion F; subst end; try congruence.
    eexists. eapply x_objc_try; eauto.
  - match goal with K : n_shape m = _ |- _ => rewrite Em in K; injection K as <- <- <- end.
    match goal with F : finish _ _ _ _ _ _ _ _ |- _ => inversion F; subst end; try congruence.
    eexists. eapply x_objc_caught; eauto.
Qed.
(** A while loop with an empty body whose condition changes nothing never ends once it holds. *)
Lemma L_empty_while_never_ends : forall st (atom : node -> st -> value -> st -> Prop) select n p c b s t o s',
  n_shape n = WhileStmt p c b -> lone_semicolon_or_empty_block b ->
  (forall v s1, head atom p (Some c) s v s1 -> (v = Truth true /\ s1 = s) \/ v = Fails ACut) ->
  exec atom select n Start s t o s' -> o = Abrupt ACut.
Proof.
  intros st atom select n p c b s t o s' E L H X. xinv X; auto.
  2:{ match goal with K : loop_of n = Some _ |- _ => unfold loop_of in K; rewrite E in K; injection K as <- end.
      match goal with K : evals _ _ _ _ _ |- _ => inversion K end. }
  match goal with K : loop_of n = Some _ |- _ => unfold loop_of in K; rewrite E in K; injection K as <- end.
  match goal with K : evals _ _ _ _ ?s1 |- _ => cbn in K; assert (s1 = s) by (inversion K; auto); subst s1 end.
  match goal with K : rounds _ _ _ _ _ _ _ _ |- _ => cbn in K; rename K into R end.
  clear X. revert R. set (L0 := {| lp_setup := []; lp_pre := p; lp_test := Some c; lp_step := []; lp_body := b; lp_bodyFirst := false |}).
  intros R.
  assert (G : forall L ph s0 t o s', rounds atom select L ph s0 t o s' -> L = L0 -> s0 = s ->
    ph = PTest \/ ph = PBody Start \/ ph = PStep -> o = Abrupt ACut).
  { clear - H L. intros L1 ph s0 t o s' R. induction R; intros EL Es P; subst; cbn in *.
    - destruct (H _ _ H0) as [(Q & _)|Q]; congruence.
    - destruct (H _ _ H0) as [(Q & _)|Q]; congruence.
    - destruct (H _ _ H0) as [(_ & ->)|Q]; [|congruence]. apply IHR; auto.
    - destruct (empty_is_idle _ _ _ _ _ _ _ _ L H0) as (-> & _). apply IHR; auto.
    - destruct (empty_is_idle _ _ _ _ _ _ _ _ L H0) as (_ & _ & [Q|Q]); congruence.
    - destruct (empty_is_idle _ _ _ _ _ _ _ _ L H0) as (_ & _ & [Q|Q]); congruence.
    - inversion H0; subst. apply IHR; auto.
    - inversion H0. }
  eapply G; eauto.
Qed.

(** ** Constant conditions *)
(** A reported if always takes the same branch ... *)
Lemma L_constant_if_takes_one_branch : forall st (atom : node -> st -> value -> st -> Prop) select evaluate n c t e b s o s',
  folds atom evaluate -> n_shape n = IfStmt [] c t e -> evaluate c = Some b -> o <> Abrupt ACut ->
  (does atom select n Start s o s' <->
     if b then does atom select t Start s o s'
     else match e with Some e => does atom select e Start s o s' | None => o = Normal /\ s' = s end).
Proof.
  intros st atom select evaluate n c t e b s o s' F E V N. rewrite (does_if atom select n [] c t e) by auto.
  assert (H : forall v s1, head atom [] (Some c) s v s1 <-> (v = Truth b \/ v = Fails ACut) /\ s1 = s).
  { intros v s1. rewrite head_nil. now apply F. }
  split.
  - intros [(a & -> & K)|[(s1 & K & D)|(s1 & K & D)]]; apply H in K; destruct K as ([Q|Q] & ?); subst; try congruence.
    + injection Q as <-. auto.
    + injection Q as <-. destruct e; auto. destruct D as (-> & ->). auto.
  - destruct b; intros D.
    + right. left. exists s. split; auto. apply H. auto.
    + right. right. exists s. split; [apply H; auto|]. destruct e; auto. destruct D; auto.
Qed.
(** ... and a reported conditional operator always yields the same operand. *)
Lemma L_constant_conditional_yields_one_operand : forall st (atom : node -> st -> value -> st -> Prop) evaluate n c t f b s v s',
  folds atom evaluate -> n_shape n = ConditionalOperator c t f -> evaluate c = Some b ->
  (eval atom n s v s' <-> eval atom (if b then t else f) s v s').
Proof.
  intros st atom evaluate n c t f b s v s' F E V. split.
  - intros X. inversion X; subst; try congruence.
    + exfalso. match goal with K : ~ structured n |- _ => apply K end. unfold structured. now rewrite E.
    + apply ev_cut.
    + match goal with K : n_shape n = ConditionalOperator _ _ _ |- _ => rewrite E in K; injection K as <- <- <- end.
      match goal with K : eval _ c _ _ _ |- _ => apply (F c b _ _ _ V) in K; destruct K as ([Q|Q] & ->) end; [|discriminate].
      injection Q as ->. auto.
    + match goal with K : n_shape n = ConditionalOperator _ _ _ |- _ => rewrite E in K; injection K as <- <- <- end.
      match goal with K : eval _ c _ _ _ |- _ => apply (F c b _ _ _ V) in K; destruct K as ([Q|Q] & ->) end; [discriminate|].
      injection Q as ->. apply ev_cut.
  - intros X. eapply ev_choice; eauto. apply (F c b); auto.
Qed.

(** ** Jumps out of finally *)
(** A finally block that does not end normally replaces the outcome: what was thrown is lost. *)
Theorem c141_jump_from_finally_hides_exception : forall st (atom : node -> st -> value -> st -> Prop) select n b f s s1 s' a,
  n_shape n = ObjCAtTryStmt b [] (Some f) ->
  does atom select b Start s (Abrupt AThrow) s1 -> does atom select f Start s1 (Abrupt a) s' ->
  does atom select n Start s (Abrupt a) s'.
Proof.
  intros st atom select n b f s s1 s' a E (t1 & X1) (t2 & X2). exists (t1 ++ t2).
  eapply x_objc_try; eauto. apply f_replaces; auto. discriminate.
Qed.
(** Without normal end of the finally block no outcome of the try block survives. *)
Theorem c141_outcome_is_that_of_finally : forall st (atom : node -> st -> value -> st -> Prop) select n b hs f s o s',
  n_shape n = ObjCAtTryStmt b hs (Some f) ->
  (forall s1 s2, ~ does atom select f Start s1 Normal s2) ->
  does atom select n Start s o s' -> o = Abrupt ACut \/ exists s1, does atom select f Start s1 o s'.
Proof.
  intros st atom select n b hs f s o s' E N (t & X). xinv X; auto;
    match goal with K : n_shape n = _ |- _ => rewrite E in K; injection K as <- <- <- end;
    match goal with F : finish _ _ _ _ _ _ _ _ |- _ => inversion F; subst; auto end;
    first [exfalso; eapply N; eexists; eassumption | right; eexists; eexists; eassumption].
Qed.

(** ** Breaks closing a loop *)
(** Evaluating an atomic expression does not break or continue. *)
Definition atoms_stay {st} (atom : node -> st -> value -> st -> Prop) : Prop :=
  forall n s a s', atom n s (Fails a) s' -> a <> ABreak /\ a <> AContinue.
Section Stay.
  Context {st : Type} (atom : node -> st -> value -> st -> Prop) (select : node -> st -> option nat -> st -> Prop).
  Hypothesis A : atoms_stay atom.
  Lemma eval_stays n s v s' : eval atom n s v s' -> forall a, v = Fails a -> a <> ABreak /\ a <> AContinue.
  Proof.
    induction 1; intros a0 E; subst; try discriminate; eauto; try (injection E as <-; split; discriminate).
  Qed.
  Lemma evals_stays l s v s' : evals atom l s v s' -> forall a, v = Fails a -> a <> ABreak /\ a <> AContinue.
  Proof.
    induction 1; intros a0 E; subst; try discriminate; eauto.
    injection E as <-. eapply eval_stays; eauto.
  Qed.
  Lemma head_stays p c s a s' : head atom p c s (Fails a) s' -> a <> ABreak /\ a <> AContinue.
  Proof. intros H. inversion H; subst; [eapply evals_stays|eapply eval_stays]; eauto. Qed.

  Definition quiet (n : node) : Prop := forall m, below n m -> n_shape m <> ContinueStmt.
  Lemma quiet_kid n m : quiet n -> In m (kids n) -> quiet m.
  Proof. intros Q I k B. apply Q. eapply below_child; eauto. Qed.
  Lemma quiet_loop n L : quiet n -> loop_of n = Some L -> quiet (lp_body L).
  Proof.
    intros Q E. apply (quiet_kid n); auto. unfold loop_of in E. unfold kids.
    destruct (n_shape n); try discriminate; injection E as <-; cbn; rewrite ?in_app_iff; cbn; auto 8.
  Qed.
  Ltac sub_quiet := match goal with Q : quiet ?n, E : n_shape ?n = _ |- quiet ?m =>
      apply (quiet_kid n); [exact Q|unfold kids; rewrite E; cbn; rewrite ?in_app_iff; cbn; auto 8] end.
  Ltac val_stays := match goal with
    | H : eval atom _ _ ?v _ |- out_of ?v <> _ => destruct v; [discriminate|];
        let K := fresh in pose proof (eval_stays _ _ _ _ H _ eq_refl) as K; cbn; destruct K; congruence
    | H : atom _ _ ?v _ |- out_of ?v <> _ => destruct v; [discriminate|]; apply A in H; cbn; destruct H; congruence
    | H : eval atom _ _ (Fails ?a) _ |- Abrupt ?a <> _ =>
        let K := fresh in pose proof (eval_stays _ _ _ _ H _ eq_refl) as K; destruct K; congruence
    | H : evals atom _ _ (Fails ?a) _ |- Abrupt ?a <> _ =>
        let K := fresh in pose proof (evals_stays _ _ _ _ H _ eq_refl) as K; destruct K; congruence
    | H : head atom _ _ _ (Fails ?a) _ |- Abrupt ?a <> _ => apply head_stays in H; destruct H; congruence
    end.
  Lemma quiet_never_continues :
    (forall n en s t o s', exec atom select n en s t o s' -> quiet n -> o <> Abrupt AContinue)
    /\ (forall block i l en s t o s', execs atom select block i l en s t o s' ->
         (forall m, In m l -> quiet m) -> o <> Abrupt AContinue)
    /\ (forall L ph s t o s', rounds atom select L ph s t o s' -> quiet (lp_body L) -> o <> Abrupt AContinue)
    /\ (forall f o s t o' s', finish atom select f o s t o' s' -> o <> Abrupt AContinue ->
         (forall m, f = Some m -> quiet m) -> o' <> Abrupt AContinue).
  Proof.
    apply exec_all; intros; try discriminate; try val_stays.
    all: try (match goal with IH : quiet ?m -> ?o <> _ |- ?o <> _ => apply IH; sub_quiet end; fail).
    all: auto.
    all: try (match goal with IH : (forall m, In m ?l -> quiet m) -> ?o <> _ |- ?o <> _ =>
        apply IH; intros; match goal with Q : (forall m, In m (_ :: _) -> quiet m) |- _ => apply Q; cbn; auto end end; fail).
    all: try (match goal with IH : quiet (lp_body ?L) -> ?o <> _, E : loop_of ?n = Some ?L |- ?o <> _ =>
        apply IH; apply (quiet_loop n); auto end; fail).
    all: try (match goal with IH : quiet ?m -> Abrupt ?a <> _, Q : (forall x, In x (?m :: _) -> quiet x) |- Abrupt ?a <> _ =>
        apply IH; apply Q; cbn; auto end; fail).
    all: try (match goal with IH : quiet ?m -> ?o <> _ |- unbroken ?o <> _ =>
        assert (o <> Abrupt AContinue) by (apply IH; sub_quiet); destruct o as [|[]]; cbn; congruence end; fail).
    - match goal with Q : quiet n |- _ => exfalso; apply (Q n); [constructor|auto] end.
    - match goal with IH : (forall m, In m l -> quiet m) -> _ |- _ => apply IH; intros; apply (quiet_kid n); auto end.
      unfold kids. now rewrite H.
    - match goal with IH : ?o1 <> _ -> _ -> ?o <> _ |- ?o <> _ => apply IH end.
      + match goal with IH : quiet b -> _ |- _ => apply IH; sub_quiet end.
      + intros m ->. sub_quiet.
    - match goal with IH : ?o1 <> _ -> _ -> ?o <> _ |- ?o <> _ => apply IH end.
      + match goal with IH : quiet h -> _ |- _ => apply IH; apply (quiet_kid n); auto end.
        unfold kids. rewrite H. cbn. rewrite ?in_app_iff. auto.
      + intros m ->. sub_quiet.
  Qed.
  Lemma closed_not_normal l j : n_shape j = BreakStmt -> forall s s', ~ dl atom select (l ++ [j]) Start s Normal s'.
  Proof.
    intros E. induction l as [|x l IH]; cbn; intros s s' D; apply dl_cons in D; destruct D as [(_ & [D|D])|[(N & _)|D]];
      try congruence.
    - destruct D as (s1 & (t & X) & _). xinv X.
    - destruct D as (a & Q & _). discriminate.
    - destruct D as (I & _). eapply inside_not_start; eauto.
    - destruct D as (s1 & _ & D). eapply IH; eauto.
    - destruct D as (a & Q & _). discriminate.
    - destruct D as (I & _). eapply inside_not_start; eauto.
  Qed.
End Stay.

(** A while loop whose body ends with a break and has no continue runs at most once: it does what
    the if with the same condition and body does, the break taken as its end. *)
Lemma L_closing_break_runs_once : forall st (atom : node -> st -> value -> st -> Prop) select n k p c b l j s o s',
  atoms_stay atom -> n_shape n = WhileStmt p c b -> n_shape b = CompoundStmt (l ++ [j]) -> n_shape j = BreakStmt ->
  (forall m, below b m -> n_shape m <> ContinueStmt) -> n_shape k = IfStmt p c b None ->
  o <> Abrupt ACut ->
  (does atom select n Start s o s' <-> exists o', does atom select k Start s o' s' /\ o = unbroken o').
Proof.
  intros st atom select n k p c b l j s o s' A En Eb Ej Q Ek N.
  assert (Bn : forall s1 t s2, ~ exec atom select b Start s1 t Normal s2).
  { intros s1 t s2 X. assert (D : does atom select b Start s1 Normal s2) by (now exists t).
    apply (does_compound atom select b (l ++ [j])) in D; auto. destruct D as [(D & _)|D]; [discriminate|].
    eapply closed_not_normal; eauto. }
  assert (Bc : forall s1 t s2, ~ exec atom select b Start s1 t (Abrupt AContinue) s2).
  { intros s1 t s2 X. exact (proj1 (quiet_never_continues atom select A) _ _ _ _ _ _ X Q eq_refl). }
  set (L := {| lp_setup := []; lp_pre := p; lp_test := Some c; lp_step := []; lp_body := b; lp_bodyFirst := false |}).
  assert (EL : loop_of n = Some L) by (unfold loop_of; now rewrite En).
  split.
  - intros (t & X). xinv X; match goal with K : loop_of n = Some _ |- _ => rewrite EL in K; injection K as <- end;
      match goal with K : evals _ _ _ _ _ |- _ => cbn in K; inversion K; subst end.
    match goal with R : rounds _ _ _ _ _ _ _ _ |- _ => cbn in R; inversion R; subst end; cbn in *.
    + exists (Abrupt a). split; [eexists; eapply x_if_fails; eauto|]. 
      match goal with K : head _ _ _ _ _ _ |- _ => apply head_stays in K; auto; destruct K end.
      destruct a; auto; congruence.
    + exists Normal. split; auto. eexists. eapply x_if_none; eauto.
    + match goal with R : rounds _ _ _ (PBody Start) _ _ _ _ |- _ => inversion R; subst end; cbn in *.
      * match goal with K : _ \/ _ |- _ => destruct K; subst end; exfalso; [eapply Bn|eapply Bc]; eauto.
      * exists (Abrupt ABreak). split; auto. eexists. eapply x_if_true; eauto.
      * exists (Abrupt a). split; [eexists; eapply x_if_true; eauto|]. destruct a; auto; congruence.
  - intros (o' & (t & X) & ->). xinv X; try (exfalso; apply N; reflexivity);
      match goal with K : n_shape k = IfStmt _ _ _ _ |- _ => rewrite Ek in K; injection K; clear K; intros; subst end.
    + match goal with K : head _ _ _ _ _ _ |- _ => pose proof K as K'; apply head_stays in K'; auto; destruct K' end.
      replace (unbroken (Abrupt a)) with (Abrupt a) by (destruct a; auto; congruence).
      eexists. eapply x_loop; [exact EL|apply es_nil|]. cbn. apply r_fails. eauto.
    + destruct o' as [|a]; [exfalso; eapply Bn; eauto|].
      assert (D : a = AContinue \/ a = ABreak \/ (a <> AContinue /\ a <> ABreak)).
      { destruct a; auto; right; right; split; discriminate. }
      destruct D as [->|[->|(D1 & D2)]].
      * exfalso. eapply Bc; eauto.
      * eexists. eapply x_loop; [exact EL|apply es_nil|]. cbn. eapply r_again; [eauto|]. apply r_break. eauto.
      * replace (unbroken (Abrupt a)) with (Abrupt a) by (destruct a; auto; congruence).
        eexists. eapply x_loop; [exact EL|apply es_nil|]. cbn. eapply r_again; [eauto|]. apply r_abrupt; eauto.
    + eexists. eapply x_loop; [exact EL|apply es_nil|]. cbn. apply r_done. auto.
    Unshelve. all: exact true.
Qed.

(** ** The same in terms of what the rules report *)
Lemma reported_empty k n b : body_of k n b -> empty_rule k n <> [] -> lone_semicolon_or_empty_block b.
Proof.
  intros B R. destruct (empty_rule_node k n) as [(m & (Bm & L) & _)|(_ & E)]; [|congruence].
  assert (b = m) by (inversion B; subst; inversion Bm; subst; congruence). now subst m.
Qed.
(** What the rules on empty blocks report does nothing. *)
Theorem c141_empty_block_does_nothing : forall st (atom : node -> st -> value -> st -> Prop) select k root r,
  In r (reports (empty_rule k) root) ->
  forall s t o s', (exec atom select (rp_node r) Start s t o s' -> s' = s /\ t = [] /\ (o = Normal \/ o = Abrupt ACut))
  /\ exec atom select (rp_node r) Start s [] Normal s.
Proof.
  intros st atom select k root r I s t o s'.
  assert (L : lone_semicolon_or_empty_block (rp_node r)).
  { rewrite reports_nodes in I. apply in_flat_map in I. destruct I as (n & _ & I). destruct (empty_rule_node k n) as [(m & (_ & L) & E)|(_ & E)];
      rewrite E in I; [destruct I as [<-|[]]; exact L|destruct I]. }
  split; [now apply empty_is_idle|now apply empty_runs].
Qed.
(** A reported if without else only evaluates its condition. *)
Theorem c141_empty_if_only_tests : forall st (atom : node -> st -> value -> st -> Prop) select n p c t s o s',
  EmptyIf_visit n <> [] -> n_shape n = IfStmt p c t None -> o <> Abrupt ACut ->
  (does atom select n Start s o s' <-> exists v, head atom p (Some c) s v s' /\ o = out_of v).
Proof.
  intros st atom select n p c t s o s' R E N. eapply L_empty_if_only_tests; eauto.
  apply (reported_empty KIf n); auto. econstructor; eauto.
Qed.
(** A reported else branch can be dropped. *)
Theorem c141_empty_else_can_go : forall st (atom : node -> st -> value -> st -> Prop) select n m p c t e en s o s',
  EmptyElse_visit n <> [] -> n_shape n = IfStmt p c t (Some e) -> n_shape m = IfStmt p c t None ->
  o <> Abrupt ACut -> (does atom select n en s o s' <-> does atom select m en s o s').
Proof.
  intros st atom select n m p c t e en s o s' R E Em N. eapply L_empty_else_can_go; eauto.
  apply (reported_empty KElse n); auto. econstructor; eauto.
Qed.
(** A reported switch selects nothing. *)
Theorem c141_empty_switch_selects_nothing : forall st (atom : node -> st -> value -> st -> Prop) select n p c b x s t o s',
  EmptySwitch_visit n <> [] -> n_shape n = SwitchStmt p c b x -> exec atom select n Start s t o s' ->
  t = [] /\ (o = Abrupt ACut \/ (exists a, head atom p (Some c) s (Fails a) s' /\ o = Abrupt a)
             \/ (exists v s1, head atom p (Some c) s (Truth v) s1 /\ select n s1 None s' /\ o = Normal)).
Proof.
  intros st atom select n p c b x s t o s' R E X. eapply L_empty_switch_selects_nothing; eauto.
  apply (reported_empty KSwitch n); auto. econstructor; eauto.
Qed.
(** A reported try block never runs a handler. *)
Theorem c141_empty_try_needs_no_handlers : forall st (atom : node -> st -> value -> st -> Prop) select n b hs s t o s',
  EmptyTry_visit n <> [] -> n_shape n = CXXTryStmt b hs -> exec atom select n Start s t o s' ->
  s' = s /\ t = [] /\ (o = Normal \/ o = Abrupt ACut).
Proof.
  intros st atom select n b hs s t o s' R E X. eapply L_empty_try_needs_no_handlers; eauto.
  apply (reported_empty KTry n); auto. econstructor; eauto.
Qed.
(** Reported catch blocks swallow what is thrown: the statement then ends normally, where the
    exception was thrown, and nothing of it is left. *)
Theorem c141_empty_catch_swallows : forall st (atom : node -> st -> value -> st -> Prop) select n b hs s o s',
  n_shape n = CXXTryStmt b hs -> hs <> [] ->
  (forall h, In h hs -> (exists e hb, n_shape h = CXXCatchStmt e hb) /\ EmptyCatch_visit h <> []) ->
  o <> Abrupt ACut ->
  (does atom select n Start s o s' <->
     does atom select b Start s o s' \/ (o = Normal /\ does atom select b Start s (Abrupt AThrow) s')).
Proof.
  intros st atom select n b hs s o s' E NH H N. eapply L_empty_catch_swallows; eauto.
  intros h Hh. destruct (H h Hh) as ((e & hb & Eh) & R). exists e, hb. split; auto.
  apply (reported_empty KCatch h); auto. econstructor; eauto.
Qed.
(** A reported finally block can be dropped. *)
Theorem c141_empty_finally_can_go : forall st (atom : node -> st -> value -> st -> Prop) select n m b hs f fb s o s',
  n_shape n = ObjCAtTryStmt b hs (Some f) -> n_shape f = ObjCAtFinallyStmt fb -> EmptyFinally_visit f <> [] ->
  n_shape m = ObjCAtTryStmt b hs None -> o <> Abrupt ACut ->
  (does atom select n Start s o s' <-> does atom select m Start s o s').
Proof.
  intros st atom select n m b hs f fb s o s' E Ef R Em N. eapply L_empty_finally_can_go; eauto.
  apply (reported_empty KFinally f); auto. econstructor; eauto.
Qed.
(** A reported while loop whose condition changes nothing never ends once the condition holds. *)
Theorem c141_empty_while_never_ends : forall st (atom : node -> st -> value -> st -> Prop) select n p c b s t o s',
  EmptyWhile_visit n <> [] -> n_shape n = WhileStmt p c b ->
  (forall v s1, head atom p (Some c) s v s1 -> (v = Truth true /\ s1 = s) \/ v = Fails ACut) ->
  exec atom select n Start s t o s' -> o = Abrupt ACut.
Proof.
  intros st atom select n p c b s t o s' R E H X. eapply L_empty_while_never_ends; eauto.
  apply (reported_empty KWhile n); auto. econstructor; eauto.
Qed.
(** A reported if always takes the same branch ... *)
Theorem c141_constant_if_takes_one_branch : forall st (atom : node -> st -> value -> st -> Prop) select evaluate n c t e,
  folds atom evaluate -> n_shape n = IfStmt [] c t e -> ConstantIf_visit evaluate n <> [] ->
  exists b : bool, forall s o s', o <> Abrupt ACut ->
  (does atom select n Start s o s' <->
     if b then does atom select t Start s o s'
     else match e with Some e => does atom select e Start s o s' | None => o = Normal /\ s' = s end).
Proof.
  intros st atom select evaluate n c t e F E R. unfold ConstantIf_visit in R. rewrite E in R.
  destruct (evaluate c) as [b|] eqn:V; [|exfalso; apply R; reflexivity].
  exists b. intros s o s' N. eapply L_constant_if_takes_one_branch; eauto.
Qed.
(** ... and a reported conditional operator always yields the same operand. *)
Theorem c141_constant_conditional_yields_one_operand : forall st (atom : node -> st -> value -> st -> Prop) evaluate n c t f,
  folds atom evaluate -> n_shape n = ConditionalOperator c t f -> ConstantConditional_visit evaluate n <> [] ->
  exists b : bool, forall s v s', eval atom n s v s' <-> eval atom (if b then t else f) s v s'.
Proof.
  intros st atom evaluate n c t f F E R. unfold ConstantConditional_visit in R. rewrite E in R.
  destruct (evaluate c) as [b|] eqn:V; [|exfalso; apply R; reflexivity].
  exists b. intros s v s'. eapply L_constant_conditional_yields_one_operand; eauto.
Qed.
(** A while loop reported for a break at its end, without continue inside, runs at most once: it
    does what the if with the same condition and body does, the break taken as its end. *)
Theorem c141_closing_break_runs_once : forall st (atom : node -> st -> value -> st -> Prop) select n k p c b j s o s',
  atoms_stay atom -> AvoidBranching_visit n = [Report j []] -> n_shape j = BreakStmt ->
  n_shape n = WhileStmt p c b -> (forall m, below b m -> n_shape m <> ContinueStmt) ->
  n_shape k = IfStmt p c b None -> o <> Abrupt ACut ->
  (does atom select n Start s o s' <-> exists o', does atom select k Start s o' s' /\ o = unbroken o').
Proof.
  intros st atom select n k p c b j s o s' A R Ej En Q Ek N.
  destruct (branching_node n) as [(m & ((b' & l & LB & Eb) & _) & E)|(_ & E)]; [|congruence].
  assert (m = j) by congruence. subst m.
  assert (b' = b) by (inversion LB as [? ? PL|]; subst; [inversion PL; subst|]; congruence). subst b'.
  eapply L_closing_break_runs_once; eauto.
Qed.
(** Finding: with a continue the rule reports the closing break all the same, though the loop can
    go round more than once: [while (a) { if (b) continue; break; }]. *)
Definition ex_again_body : node :=
  nd 3 (CompoundStmt [nd 4 (IfStmt [] (var 5) (nd 6 ContinueStmt) None); nd 7 BreakStmt]).
Definition ex_again : node := nd 1 (WhileStmt [] (var 2) ex_again_body).
(** [a] counts the rounds; [b] holds in the first. *)
Definition ex_count (n : node) (s : nat) (v : value) (s' : nat) : Prop :=
  (n = var 2 /\ v = Truth true /\ s' = S s) \/ (n = var 5 /\ v = Truth (s =? 1) /\ s' = s).
Theorem c141_continue_before_break_refuted : exists n k p c b j,
  reports AvoidBranching_visit n = [Report j []] /\ n_shape j = BreakStmt
  /\ n_shape n = WhileStmt p c b /\ n_shape k = IfStmt p c b None
  /\ exists st (atom : node -> st -> value -> st -> Prop) select s s', atoms_stay atom
     /\ does atom select n Start s Normal s'
     /\ ~ exists o', does atom select k Start s o' s'.
Proof.
  exists ex_again, (nd 8 (IfStmt [] (var 2) ex_again_body None)), [], (var 2), ex_again_body, (nd 7 BreakStmt).
  split; [reflexivity|]. do 3 (split; [reflexivity|]).
  exists nat, ex_count, (fun _ _ _ _ => False), 0, 2. split; [|split].
  - intros n s a s' [(_ & H & _)|(_ & H & _)]; discriminate.
  - assert (T2 : forall s, head ex_count [] (Some (var 2)) s (Truth true) (S s)).
    { intros s. apply head_nil. apply ev_atom; [intros []|]. left. auto. }
    assert (T5 : forall s, head ex_count [] (Some (var 5)) s (Truth (s =? 1)) s).
    { intros s. apply head_nil. apply ev_atom; [intros []|]. right. auto. }
    eexists. eapply x_loop; [reflexivity|apply es_nil|]. cbn.
    eapply r_again; [apply T2|]. eapply r_body; [|right; reflexivity|]; cbn.
    + eapply x_compound; [reflexivity|]. apply xs_abrupt. eapply x_if_true; [reflexivity|apply (T5 1)|].
      apply x_continue. reflexivity.
    + eapply r_step; [apply es_nil|]. eapply r_again; [apply T2|]. apply r_break. cbn.
      eapply x_compound; [reflexivity|]. eapply xs_next.
      * eapply x_if_none; [reflexivity|]. apply (T5 2).
      * apply xs_abrupt. apply x_break. reflexivity.
  - assert (H2 : forall s v s', head ex_count [] (Some (var 2)) s v s' -> s' = S s \/ s' = s).
    { intros s v s' H. apply head_nil in H. inversion H; subst; cbn in *; try discriminate; auto.
      match goal with K : ex_count _ _ _ _ |- _ => destruct K as [(_ & _ & ->)|(Q & _)] end; [auto|discriminate Q]. }
    assert (H5 : forall s v s', head ex_count [] (Some (var 5)) s v s' -> s' = s).
    { intros s v s' H. apply head_nil in H. inversion H; subst; cbn in *; try discriminate; auto.
      match goal with K : ex_count _ _ _ _ |- _ => destruct K as [(Q & _)|(_ & _ & ->)] end; [discriminate Q|auto]. }
    assert (HJ : forall m s t o s', m = nd 6 ContinueStmt \/ m = nd 7 BreakStmt ->
      exec ex_count (fun _ _ _ _ => False) m Start s t o s' -> s' = s).
    { intros m s t o s' [->| ->] X; xinv X; auto. all: cbn in *; discriminate. }
    assert (HI : forall s t o s', exec ex_count (fun _ _ _ _ => False) (nd 4 (IfStmt [] (var 5) (nd 6 ContinueStmt) None)) Start s t o s' -> s' = s).
    { intros s t o s' X. assert (D : does ex_count (fun _ _ _ _ => False) (nd 4 (IfStmt [] (var 5) (nd 6 ContinueStmt) None)) Start s o s') by (now exists t).
      apply (does_if _ _ (nd 4 (IfStmt [] (var 5) (nd 6 ContinueStmt) None)) _ _ _ _ _ _ _ eq_refl) in D as [(a & _ & K)|[(s1 & K & t1 & X1)|(s1 & K & _ & <-)]];
        apply H5 in K; subst; auto. exact (HJ _ _ _ _ _ (or_introl eq_refl) X1). }
    intros (o' & D). apply (does_if _ _ (nd 8 (IfStmt [] (var 2) ex_again_body None)) _ _ _ _ _ _ _ eq_refl) in D as [(a & _ & K)|[(s1 & K & t1 & X1)|(s1 & K & _ & Q)]].
    + apply H2 in K. lia.
    + apply H2 in K. assert (2 = s1); [|lia].
      inversion X1; subst; cbn in *; try discriminate; auto.
      match goal with H : CompoundStmt _ = CompoundStmt _ |- _ => injection H as <- end.
      match goal with H : execs _ _ _ _ _ _ _ _ _ _ |- _ => inversion H; subst; clear H end; try congruence;
        try (match goal with H : inside Start _ |- _ => exfalso; eapply inside_not_start; eauto end);
        match goal with H : exec _ _ (nd 4 _) _ _ _ _ _ |- _ => apply HI in H; subst end; auto.
      match goal with H : execs _ _ _ _ _ _ _ _ _ _ |- _ => inversion H; subst; clear H end; try congruence;
        try (match goal with H : inside Start _ |- _ => exfalso; eapply inside_not_start; eauto end);
        match goal with H : exec _ _ (nd 7 _) _ _ _ _ _ |- _ => apply HJ in H; auto; subst end; auto; match goal with H : execs _ _ _ _ [] _ _ _ _ _ |- _ => inversion H; subst; auto | _ => idtac end.
    + apply H2 in K. lia.
    Unshelve. all: exact true.
Qed.

(** The hypotheses can be met. *)
Definition ex_fold (c : node) : option bool :=
  match n_shape c with IntegerLiteral z => Some (negb (z =? 0)%Z) | _ => None end.
Example c141_folding : folds (fun n (s : nat) v s' => exists z, n_shape n = IntegerLiteral z /\ v = Truth (negb (z =? 0)%Z) /\ s' = s) ex_fold
  /\ ex_fold (nd 1 (IntegerLiteral 3)) = Some true.
Proof.
  split; [|reflexivity]. intros c b s v s' E. unfold ex_fold in E. destruct (n_shape c) eqn:S; try discriminate.
  injection E as <-. split.
  - intros X. inversion X; subst; try congruence; auto.
    match goal with K : exists _, _ |- _ => destruct K as (z & K & -> & ->) end. split; [left|]; congruence.
  - intros ([->| ->] & ->); [|apply ev_cut]. apply ev_atom; [unfold structured; now rewrite S|]. eauto.
Qed.
Example c141_endless : forall s t o s',
  exec (fun _ (s : nat) v s' => v = Truth true /\ s' = s) (fun _ _ _ _ => False)
    (nd 1 (WhileStmt [] (var 2) (nd 3 NullStmt))) Start s t o s' -> o = Abrupt ACut.
Proof.
  intros s t o s'. eapply c141_empty_while_never_ends; [cbn; discriminate|reflexivity|].
  intros v s1 H. apply head_nil in H. inversion H; subst; cbn in *; try discriminate; auto.
Qed.
Example c141_once : forall s o s',
  let atom := fun _ (s : nat) v s' => v = Truth true /\ s' = S s in
  o <> Abrupt ACut ->
  (does atom (fun _ _ _ _ => False) (nd 1 (WhileStmt [] (var 2) (nd 3 (CompoundStmt [var 4; nd 5 BreakStmt])))) Start s o s'
   <-> exists o', does atom (fun _ _ _ _ => False)
        (nd 6 (IfStmt [] (var 2) (nd 3 (CompoundStmt [var 4; nd 5 BreakStmt])) None)) Start s o' s' /\ o = unbroken o').
Proof.
  intros s o s' atom N. eapply (c141_closing_break_runs_once _ atom _ _ _ _ _ _ (nd 5 BreakStmt));
    try reflexivity; auto.
  - intros n s0 a s1 (H & _). discriminate.
  - intros m B. apply in_nodes in B. cbn in B. destruct B as [<-|[<-|[<-|[]]]]; discriminate.
Qed.
Print Assumptions c141_empty_block_does_nothing.
Print Assumptions c141_empty_if_only_tests.
Print Assumptions c141_empty_else_can_go.
Print Assumptions c141_empty_switch_selects_nothing.
Print Assumptions c141_empty_try_needs_no_handlers.
Print Assumptions c141_empty_catch_swallows.
Print Assumptions c141_empty_finally_can_go.
Print Assumptions c141_empty_while_never_ends.
Print Assumptions c141_constant_if_takes_one_branch.
Print Assumptions c141_constant_conditional_yields_one_operand.
Print Assumptions c141_jump_from_finally_hides_exception.
Print Assumptions c141_outcome_is_that_of_finally.
Print Assumptions c141_closing_break_runs_once.
Print Assumptions c141_continue_before_break_refuted.
