(** * Lemmas about the execution of statement sequences and loops with exchanged parts *)
From Verif Require Import Base BaseFacts ModelAST SpecAST ModelRules SpecExec SpecRulesBasic ProofExec.

Section S.
  Context {st : Type} (atom : node -> st -> value -> st -> Prop) (select : node -> st -> option nat -> st -> Prop).
  Notation exec := (exec atom select).
  Notation execs := (execs atom select).
  Notation rounds := (rounds atom select).
  Notation eval := (eval atom).
  Notation head := (head atom).
  Notation does := (does atom select).

  (** A statement list, without the record of where control was. *)
  Definition dl (l : list node) (en : entry) (s : st) (o : out) (s' : st) : Prop :=
    forall block i, exists t, execs block i l en s t o s'.

  Lemma execs_dl block i l en s t o s' : execs block i l en s t o s' -> dl l en s o s'.
  Proof.
    revert block i en s t o s'. induction l as [|m l IH]; intros block i en s t o s' H block' i'.
    - inversion H; subst. eexists. apply xs_nil.
    - inversion H; subst.
      + match goal with K : SpecExec.execs _ _ _ _ l _ _ _ _ _ |- _ => destruct (IH _ _ _ _ _ _ _ K block' (S i')) as [t' K'] end.
        eexists. eapply xs_next; eauto.
      + eexists. apply xs_abrupt. eassumption.
      + match goal with K : SpecExec.execs _ _ _ _ l _ _ _ _ _ |- _ => destruct (IH _ _ _ _ _ _ _ K block' (S i')) as [t' K'] end.
        eexists. apply xs_skip; eauto.
      + match goal with K : SpecExec.execs _ _ _ _ l _ _ _ _ _ |- _ => destruct (IH _ _ _ _ _ _ _ K block' (S i')) as [t' K'] end.
        eexists. eapply xs_enter; eauto.
      + eexists. apply xs_enter_abrupt; eauto.
  Qed.
  Lemma dl_nil en s o s' : dl [] en s o s' <-> en = Start /\ o = Normal /\ s' = s.
  Proof.
    split.
    - intros H. destruct (H (Node 0 [] NullStmt) 0) as [t K]. inversion K; auto.
    - intros (-> & -> & ->) block i. eexists. apply xs_nil.
  Qed.
  Lemma dl_cons m l en s o s' : dl (m :: l) en s o s' <->
    (en = Start /\ ((exists s1, does m Start s Normal s1 /\ dl l Start s1 o s')
                    \/ (exists a, o = Abrupt a /\ does m Start s (Abrupt a) s')))
    \/ (en <> Start /\ ~ inside en m /\ dl l en s o s')
    \/ (inside en m /\ ((exists s1, does m en s Normal s1 /\ dl l Start s1 o s')
                    \/ (exists a, o = Abrupt a /\ does m en s (Abrupt a) s'))).
  Proof.
    split.
    - intros H. destruct (H (Node 0 [] NullStmt) 0) as [t K]. inversion K; subst.
      + left. split; auto. left. exists s1. split; [eexists; eauto|]. eapply execs_dl; eauto.
      + left. split; auto. right. exists a. split; auto. eexists; eauto.
      + right. left. split; auto. split; auto. eapply execs_dl; eauto.
      + right. right. split; auto. left. exists s1. split; [eexists; eauto|]. eapply execs_dl; eauto.
      + right. right. split; auto. right. exists a. split; auto. eexists; eauto.
    - intros [[-> [(s1 & [t1 X] & D)|(a & -> & [t1 X])]]|[(E & N & D)|[I [(s1 & [t1 X] & D)|(a & -> & [t1 X])]]]] block i.
      + destruct (D block (S i)) as [t2 Y]. eexists. eapply xs_next; eauto.
      + eexists. apply xs_abrupt. eauto.
      + destruct (D block (S i)) as [t2 Y]. eexists. apply xs_skip; eauto.
      + destruct (D block (S i)) as [t2 Y]. eexists. eapply xs_enter; eauto.
      + eexists. apply xs_enter_abrupt; eauto.
  Qed.
  Lemma does_compound n l en s o s' : n_shape n = CompoundStmt l ->
    (does n en s o s' <-> (o = Abrupt ACut /\ s' = s) \/ dl l en s o s').
  Proof.
    intros E. split.
    - intros [t X]. xinv X; [auto|]. replace l0 with l in * by congruence. right. eapply execs_dl; eauto.
    - intros [[-> ->]|D]; [apply does_cut|]. destruct (D n 0) as [t X]. eexists. eapply x_compound; eauto.
  Qed.
  Lemma inside_compound n l en : n_shape n = CompoundStmt l -> (inside en n <-> exists m, In m l /\ inside en m).
  Proof.
    intros E. split.
    - inversion 1; subst; try congruence. unfold enterable in H0. rewrite E in H0. eauto.
    - intros (m & Hm & H). apply in_sub with m; auto.
      + unfold enterable. now rewrite E.
      + intros i _ (? & ? & ? & ? & Q). congruence.
  Qed.

  (** Exchanging the end of a sequence, outcomes changing within [R]. *)
  Lemma exchange_tail (R : out -> out -> Prop) x y : (forall o, R o o) ->
    (forall en s o s', dl x en s o s' -> exists o', R o o' /\ dl y en s o' s') ->
    forall l en s o s', dl (l ++ x) en s o s' -> exists o', R o o' /\ dl (l ++ y) en s o' s'.
  Proof.
    intros Rr H. induction l as [|m l IH]; intros en s o s' D; cbn [app] in *; [eauto|].
    apply dl_cons in D as [[-> [(s1 & X & D)|(a & -> & X)]]|[(E & N & D)|[I [(s1 & X & D)|(a & -> & X)]]]].
    - destruct (IH _ _ _ _ D) as (o' & HR & D'). exists o'. split; auto. apply dl_cons. left. split; auto. left. eauto.
    - exists (Abrupt a). split; auto. apply dl_cons. left. split; auto. right. eauto.
    - destruct (IH _ _ _ _ D) as (o' & HR & D'). exists o'. split; auto. apply dl_cons. right. left. auto.
    - destruct (IH _ _ _ _ D) as (o' & HR & D'). exists o'. split; auto. apply dl_cons. right. right. split; auto. left. eauto.
    - exists (Abrupt a). split; auto. apply dl_cons. right. right. split; auto. right. eauto.
  Qed.

  (** Loop bodies that a loop cannot tell apart: falling off the end is like continue, and a run
      cut in a body that is at its end may as well be cut at the next test. *)
  Definition same_round (o o' : out) : Prop :=
    o = o' \/ ((o = Normal \/ o = Abrupt AContinue \/ o = Abrupt ACut) /\ (o' = Normal \/ o' = Abrupt AContinue)).
  Definition simulates (b b' : node) : Prop :=
    (forall en, inside en b -> inside en b')
    /\ forall en s o s', does b en s o s' -> exists o', same_round o o' /\ does b' en s o' s'.
  Definition with_body (L : loopparts) (b : node) : loopparts :=
    {| lp_setup := lp_setup L; lp_pre := lp_pre L; lp_test := lp_test L; lp_step := lp_step L; lp_body := b;
       lp_bodyFirst := lp_bodyFirst L |}.
  Lemma test_cut L s : exists t, rounds L PTest s t (Abrupt ACut) s.
  Proof.
    destruct (lp_pre L) as [|a pre] eqn:P.
    - destruct (lp_test L) as [c|] eqn:T.
      + eexists. apply r_fails. rewrite P, T. apply head_cut.
      + eexists. eapply r_again.
        * rewrite P, T. eapply hd_none. apply es_nil.
        * apply r_abrupt; [apply x_cut|discriminate|discriminate].
    - eexists. apply r_fails. rewrite P. apply hd_fails, evals_cut. discriminate.
  Qed.
  Lemma step_cut L s : exists t, rounds L PStep s t (Abrupt ACut) s.
  Proof.
    destruct (lp_step L) as [|a l] eqn:P.
    - destruct (test_cut L s) as [t H]. exists t. eapply r_step; [|exact H]. rewrite P. apply es_nil.
    - eexists. apply r_step_fails. rewrite P. apply evals_cut. discriminate.
  Qed.
  Lemma rounds_simulated : forall L ph s t o s', rounds L ph s t o s' -> forall b', simulates (lp_body L) b' ->
    exists t', rounds (with_body L b') ph s t' o s'.
  Proof.
    intros L ph s t o s' H. induction H; intros b' Sim.
    - eexists. apply r_fails. exact H.
    - eexists. apply r_done. exact H.
    - destruct (IHrounds _ Sim) as [t' X]. exists t'. eapply r_again; eauto.
    - destruct (IHrounds _ Sim) as [t' X].
      destruct (proj2 Sim en s o1 s1) as (o' & [<-|[_ C]] & [t'' Y]); [eexists; eauto| |];
        eexists; eapply r_body; eauto.
    - destruct (proj2 Sim en s (Abrupt ABreak) s') as (o' & [<-|[[C|[C|C]] _]] & [t'' Y]); [eexists; eauto| |discriminate..].
      eexists. eapply r_break. exact Y.
    - destruct (proj2 Sim en s (Abrupt a) s') as (o' & [<-|[[C|[C|C]] K]] & [t'' Y]); [eexists; eauto| |discriminate|congruence|].
      + eexists. eapply r_abrupt; eauto.
      + injection C as ->. destruct (step_cut (with_body L b') s') as [t2 Z]. eexists. eapply r_body; eauto.
    - destruct (IHrounds _ Sim) as [t' X]. exists t'. eapply r_step; eauto.
    - eexists. eapply r_step_fails. eauto.
  Qed.
  Lemma loop_simulated n m L b' : loop_of n = Some L -> loop_of m = Some (with_body L b') -> simulates (lp_body L) b' ->
    forall en s o s', does n en s o s' -> does m en s o s'.
  Proof.
    intros En Em Sim en s o s' [t X].
    inversion X; subst; try (match goal with E : n_shape n = _ |- _ => unfold loop_of in En; rewrite E in En; discriminate end).
    - apply does_cut.
    - exfalso. unfold loop_of in En. unfold isExpr in *. destruct (n_shape n); discriminate.
    - replace L0 with L in * by congruence.
      match goal with K : SpecExec.rounds _ _ _ _ _ _ _ _ |- _ => destruct (rounds_simulated _ _ _ _ _ _ K _ Sim) as [t' Y] end.
      eexists. eapply x_loop; eauto.
    - replace L0 with L in * by congruence. eexists. eapply x_loop_fails; eauto.
    - replace L0 with L in * by congruence.
      match goal with K : SpecExec.rounds _ _ _ _ _ _ _ _ |- _ => destruct (rounds_simulated _ _ _ _ _ _ K _ Sim) as [t' Y] end.
      eexists. eapply x_loop_into; eauto. cbn [with_body lp_body]. now apply (proj1 Sim).
  Qed.
  Lemma loop_exchange n m L b' : loop_of n = Some L -> loop_of m = Some (with_body L b') ->
    simulates (lp_body L) b' -> simulates b' (lp_body L) -> equivalent atom select n m.
  Proof.
    intros En Em S1 S2 en s o s'. split.
    - eapply loop_simulated; eauto.
    - eapply (loop_simulated m n (with_body L b') (lp_body L)); eauto. rewrite En. destruct L; reflexivity.
  Qed.

  Lemma block_simulates b b' l x y : n_shape b = CompoundStmt (l ++ x) -> n_shape b' = CompoundStmt (l ++ y) ->
    (forall en m, In m x -> inside en m -> exists m', In m' y /\ inside en m') ->
    (forall en s o s', dl x en s o s' -> exists o', same_round o o' /\ dl y en s o' s') ->
    simulates b b'.
  Proof.
    intros E E' I H. split.
    - intros en K. apply (inside_compound b _ en E) in K as (m & Hm & K). apply (inside_compound b' _ en E').
      apply in_app_or in Hm as [Hm|Hm].
      + exists m. split; auto. apply in_or_app. auto.
      + destruct (I _ _ Hm K) as (m' & Hm' & K'). exists m'. split; auto. apply in_or_app. auto.
    - intros en s o s' D. apply (does_compound b _ _ _ _ _ E) in D as [[-> ->]|D].
      + exists (Abrupt ACut). split; [now left|apply does_cut].
      + destruct (exchange_tail same_round x y (fun o => or_introl eq_refl) H _ _ _ _ _ D) as (o' & R & D').
        exists o'. split; auto. apply (does_compound b' _ _ _ _ _ E'). auto.
  Qed.

  (** Jumps *)
  Lemma does_continue n s o s' : n_shape n = ContinueStmt ->
    (does n Start s o s' <-> (o = Abrupt AContinue \/ o = Abrupt ACut) /\ s' = s).
  Proof.
    intros E. split.
    - intros [t X]. xinv X; auto.
    - intros [[->| ->] ->]; eexists; [now apply x_continue|apply x_cut].
  Qed.
  Lemma does_null n s o s' : n_shape n = NullStmt ->
    (does n Start s o s' <-> (o = Normal \/ o = Abrupt ACut) /\ s' = s).
  Proof.
    intros E. split.
    - intros [t X]. xinv X; auto.
    - intros [[->| ->] ->]; eexists; [now apply x_null|apply x_cut].
  Qed.
  Definition nothing_inside (n : node) : Prop := forall en, ~ inside en n.
  Lemma no_labels n : enterable n = [] -> ~ labelled_statement n -> nothing_inside n.
  Proof.
    intros E N en I. unfold labelled_statement in N. inversion I; subst; [apply N|apply N|apply N|]; eauto. rewrite E in *. auto.
  Qed.
  Lemma continue_inside n : n_shape n = ContinueStmt -> nothing_inside n.
  Proof.
    intros E. apply no_labels; unfold enterable, labelled_statement; rewrite E; auto.
    intros [(? & ? & Q)|[(? & Q)|(? & ? & Q)]]; discriminate.
  Qed.
  Lemma null_inside n : n_shape n = NullStmt -> nothing_inside n.
  Proof.
    intros E. apply no_labels; unfold enterable, labelled_statement; rewrite E; auto.
    intros [(? & ? & Q)|[(? & Q)|(? & ? & Q)]]; discriminate.
  Qed.

  (** Exchanging negation and branches *)
  Definition negates (c d : node) : Prop :=
    forall s v s', eval c s v s' <-> exists w, eval d s w s' /\ v = match w with Truth b => Truth (negb b) | Fails a => Fails a end.
  Lemma not_negates c d : n_shape c = UnaryOperator UO_LNot d -> negates c d.
  Proof. intros E s v s'. now apply eval_not. Qed.
  Lemma negates_sym c d : negates c d -> negates d c.
  Proof.
    intros H s v s'. split.
    - intros K. exists (match v with Truth b => Truth (negb b) | Fails a => Fails a end). split.
      + apply H. exists v. auto.
      + destruct v; [now rewrite negb_involutive|reflexivity].
    - intros (w & K & ->). apply H in K as (u & K & ->). destruct u; [rewrite negb_involutive|]; exact K.
  Qed.
  Lemma head_negates p c d s : negates c d -> forall v s',
    head p (Some c) s v s' <-> exists w, head p (Some d) s w s' /\ v = match w with Truth b => Truth (negb b) | Fails a => Fails a end.
  Proof.
    intros N v s'. split.
    - inversion 1; subst.
      + exists (Fails a). split; auto. now apply hd_fails.
      + match goal with K : SpecExec.eval _ c _ _ _ |- _ => apply N in K as (w & K & ->) end. exists w. split; auto. eapply hd_cond; eauto.
    - intros (w & K & ->). inversion K; subst; [now apply hd_fails|]. eapply hd_cond; eauto. apply N. eauto.
  Qed.
  Lemma swap_branches n k p c d t e : n_shape n = IfStmt p c t (Some e) -> n_shape k = IfStmt p d e (Some t) ->
    negates c d -> equivalent atom select n k.
  Proof.
    intros En Ek N en s o s'. destruct (match en with Start => true | _ => false end) eqn:B.
    - assert (en = Start) as -> by (destruct en; congruence).
      rewrite (does_if atom select n _ _ _ _ _ _ _ En), (does_if atom select k _ _ _ _ _ _ _ Ek).
      assert (P : forall b s1, head p (Some c) s (Truth b) s1 <-> head p (Some d) s (Truth (negb b)) s1).
      { intros b s1. rewrite (head_negates p c d s N). split.
        - intros ([w|w] & K & [=]). subst. now rewrite negb_involutive.
        - intros K. exists (Truth (negb b)). split; auto. now rewrite negb_involutive. }
      assert (Q : forall a s1, head p (Some c) s (Fails a) s1 <-> head p (Some d) s (Fails a) s1).
      { intros a s1. rewrite (head_negates p c d s N). split.
        - intros ([w|w] & K & [=]). now subst.
        - intros K. eauto. }
      setoid_rewrite P. setoid_rewrite Q. cbn [negb]. tauto.
    - assert (D : en <> Start) by (destruct en; congruence).
      rewrite (does_if_into atom select n _ _ _ _ _ _ _ _ En D), (does_if_into atom select k _ _ _ _ _ _ _ _ Ek D).
      split.
      + intros [H|[H|(e' & [= <-] & H)]]; eauto 6.
      + intros [H|[H|(e' & [= <-] & H)]]; eauto 6.
  Qed.
  Lemma eval_choice n c t f s v s' : n_shape n = ConditionalOperator c t f ->
    (eval n s v s' <-> (v = Fails ACut /\ s' = s) \/ (exists a, v = Fails a /\ eval c s (Fails a) s')
       \/ exists b s1, eval c s (Truth b) s1 /\ eval (if b then t else f) s1 v s').
  Proof.
    intros E. split.
    - inversion 1; subst; try congruence.
      + exfalso. match goal with K : ~ structured _ |- _ => apply K end. unfold structured. now rewrite E.
      + auto.
      + replace t0 with t in * by congruence. replace f0 with f in * by congruence. replace c0 with c in * by congruence. eauto 6.
      + replace c0 with c in * by congruence. eauto 6.
    - intros [[-> ->]|[(a & -> & H)|(b & s1 & H & K)]]; [apply ev_cut|eapply ev_choice_fails; eauto|eapply ev_choice; eauto].
  Qed.
  Lemma swap_choice n k c d t f : n_shape n = ConditionalOperator c t f -> n_shape k = ConditionalOperator d f t ->
    negates c d -> forall s v s', eval n s v s' <-> eval k s v s'.
  Proof.
    intros En Ek N s v s'. rewrite (eval_choice n _ _ _ _ _ _ En), (eval_choice k _ _ _ _ _ _ Ek).
    assert (P : forall b s1, eval c s (Truth b) s1 <-> eval d s (Truth (negb b)) s1).
    { intros b s1. rewrite (N s). split.
      - intros ([w|w] & K & [=]). subst. now rewrite negb_involutive.
      - intros K. exists (Truth (negb b)). split; auto. now rewrite negb_involutive. }
    assert (Q : forall a s1, eval c s (Fails a) s1 <-> eval d s (Fails a) s1).
    { intros a s1. rewrite (N s). split.
      - intros ([w|w] & K & [=]). now subst.
      - intros K. eauto. }
    setoid_rewrite P. setoid_rewrite Q. split.
    - intros [H|[H|(b & s1 & H & K)]]; auto. right. right. exists (negb b), s1. split; auto. destruct b; exact K.
    - intros [H|[H|(b & s1 & H & K)]]; auto. right. right. exists (negb b), s1. rewrite negb_involutive. split; auto. destruct b; exact K.
  Qed.

  (** [if (c) t] at the end of a loop body, and [if (!c) continue; t] *)
  Lemma dl_one m en s o s' : dl [m] en s o s' <-> (en = Start \/ inside en m) /\ does m en s o s'.
  Proof.
    rewrite dl_cons. setoid_rewrite dl_nil. split.
    - intros [[-> [(s1 & X & _ & -> & ->)|(a & -> & X)]]|[(E & _ & C & _)|[I [(s1 & X & _ & -> & ->)|(a & -> & X)]]]]; auto. congruence.
    - intros [[->|I] X]; destruct o as [|a].
      + left. split; auto. left. exists s'. auto.
      + left. split; auto. right. eauto.
      + right. right. split; auto. left. exists s'. auto.
      + right. right. split; auto. right. eauto.
  Qed.
  Lemma if_inside n c t en : n_shape n = IfStmt [] c t None -> (inside en n <-> inside en t).
  Proof. intros E. rewrite (inside_if atom select n _ _ _ _ en E). split; [intros [H|(? & [=] & _)]; auto|auto]. Qed.
  Lemma start_or en n : inside en n -> en <> Start.
  Proof. intros H ->. eapply inside_not_start; eauto. Qed.

  Section Early.
    Variables (c d t n k j : node).
    Hypothesis En : n_shape n = IfStmt [] c t None.
    Hypothesis Ek : n_shape k = IfStmt [] d j None.
    Hypothesis N : negates d c.
    Hypothesis NI : nothing_inside j.
    Lemma k_inside en : ~ inside en k.
    Proof. rewrite (if_inside k _ _ en Ek). apply NI. Qed.
    Lemma neg_truth b s s1 : eval d s (Truth b) s1 <-> eval c s (Truth (negb b)) s1.
    Proof.
      rewrite (N s). split.
      - intros ([w|w] & K & [=]). subst. now rewrite negb_involutive.
      - intros K. exists (Truth (negb b)). split; auto. now rewrite negb_involutive.
    Qed.
    Lemma neg_fails a s s1 : eval d s (Fails a) s1 <-> eval c s (Fails a) s1.
    Proof. rewrite (N s). split; [intros ([w|w] & K & [=]); now subst|eauto]. Qed.
    Lemma guard_start s o s' : does k Start s o s' <->
      (exists a, o = Abrupt a /\ eval c s (Fails a) s') \/ (exists s1, eval c s (Truth false) s1 /\ does j Start s1 o s')
      \/ (eval c s (Truth true) s' /\ o = Normal).
    Proof.
      rewrite (does_if atom select k _ _ _ _ _ _ _ Ek). setoid_rewrite head_nil. setoid_rewrite neg_truth. setoid_rewrite neg_fails.
      cbn [negb]. split.
      - intros [H|[H|(s1 & H & -> & ->)]]; auto.
      - intros [H|[H|[H ->]]]; eauto 6.
    Qed.
    Lemma if_start s o s' : does n Start s o s' <->
      (exists a, o = Abrupt a /\ eval c s (Fails a) s') \/ (exists s1, eval c s (Truth true) s1 /\ does t Start s1 o s')
      \/ (eval c s (Truth false) s' /\ o = Normal).
    Proof.
      rewrite (does_if atom select n _ _ _ _ _ _ _ En). setoid_rewrite head_nil. split.
      - intros [H|[H|(s1 & H & -> & ->)]]; auto.
      - intros [H|[H|[H ->]]]; eauto 6.
    Qed.
    Lemma if_into en s o s' : inside en t -> (does n en s o s' <-> does t en s o s').
    Proof.
      intros I. pose proof (start_or _ _ I) as D. rewrite (does_if_into atom select n _ _ _ _ _ _ _ _ En D). split.
      - intros [[-> ->]|[[_ H]|(? & [=] & _)]]; [apply does_cut|auto].
      - auto.
    Qed.

    (** Both go on with [rest] *)
    Lemma early_forward (R : out -> out -> Prop) rest en s o s' : (forall o, R o o) ->
      (forall s o s', does j Start s o s' -> o <> Normal) ->
      (forall s o s', dl rest Start s o s' -> exists o', R o o' /\ does j Start s o' s') ->
      dl (n :: rest) en s o s' -> exists o', R o o' /\ dl (k :: t :: rest) en s o' s'.
    Proof.
      intros Rr JN JR D.
      apply dl_cons in D as [[-> [(s1 & X & D)|(a & -> & X)]]|[(E & NN & D)|[I [(s1 & X & D)|(a & -> & X)]]]].
      - apply if_start in X as [(a & [=] & _)|[(s2 & H & X)|[H _]]].
        + exists o. split; [auto|]. apply dl_cons. left. split; auto. left. exists s2. split; [apply guard_start; auto|].
          apply dl_cons. left. split; auto. left. exists s1. auto.
        + destruct (JR _ _ _ D) as (o' & HR & J). exists o'. split; auto. apply dl_cons. left. split; auto. right.
          destruct o' as [|a]; [exfalso; eapply JN; eauto|]. exists a. split; auto. apply guard_start. right. left. eauto.
      - exists (Abrupt a). split; [auto|]. apply if_start in X as [(b & [= <-] & H)|[(s2 & H & X)|[_ [=]]]].
        + apply dl_cons. left. split; auto. right. exists a. split; auto. apply guard_start. left. eauto.
        + apply dl_cons. left. split; auto. left. exists s2. split; [apply guard_start; auto|].
          apply dl_cons. left. split; auto. right. eauto.
      - exists o. split; [auto|]. apply dl_cons. right. left. split; auto. split; [apply k_inside|].
        apply dl_cons. right. left. split; auto. split; auto. intros K. apply NN. now apply (if_inside n _ _ en En).
      - exists o. split; [auto|]. apply dl_cons. right. left. split; [eapply start_or; eauto|]. split; [apply k_inside|].
        apply (if_inside n _ _ en En) in I. apply dl_cons. right. right. split; auto. left. exists s1. split; auto.
        now apply if_into in X.
      - exists (Abrupt a). split; [auto|]. apply dl_cons. right. left. split; [eapply start_or; eauto|]. split; [apply k_inside|].
        apply (if_inside n _ _ en En) in I. apply dl_cons. right. right. split; auto. right. exists a. split; auto.
        now apply if_into in X.
    Qed.
    Lemma early_backward (R : out -> out -> Prop) rest en s o s' : (forall o, R o o) ->
      (forall s o s', does j Start s o s' -> o <> Normal) ->
      (forall s o s', does j Start s o s' -> exists o', R o o' /\ dl rest Start s o' s') ->
      dl (k :: t :: rest) en s o s' -> exists o', R o o' /\ dl (n :: rest) en s o' s'.
    Proof.
      intros Rr JN JR D.
      apply dl_cons in D as [[-> [(s1 & X & D)|(a & -> & X)]]|[(E & NN & D)|[I _]]].
      - apply guard_start in X as [(a & [=] & _)|[(s2 & H & X)|[H _]]].
        + exfalso. eapply JN; eauto.
        + exists o. split; [auto|].
          apply dl_cons in D as [[_ [(s2 & X & D)|(a & -> & X)]]|[(E & _ & D)|[I _]]].
          * apply dl_cons. left. split; auto. left. exists s2. split; auto. apply if_start. eauto.
          * apply dl_cons. left. split; auto. right. exists a. split; auto. apply if_start. eauto.
          * congruence.
          * exfalso. eapply inside_not_start; eauto.
      - apply guard_start in X as [(b & [= <-] & H)|[(s2 & H & X)|[_ [=]]]].
        + exists (Abrupt a). split; [auto|]. apply dl_cons. left. split; auto. right. exists a. split; auto. apply if_start. left. eauto.
        + destruct (JR _ _ _ X) as (o' & HR & D).
          exists o'. split; auto. apply dl_cons. left. split; auto. left. exists s2. split; auto. apply if_start. auto.
      - exists o. split; [auto|].
        apply dl_cons in D as [[C _]|[(_ & N2 & D)|[I [(s1 & X & D)|(a & -> & X)]]]]; [congruence| | |].
        + apply dl_cons. right. left. split; auto. split; auto. intros K. apply N2. now apply (if_inside n _ _ en En).
        + apply dl_cons. right. right. split; [now apply (if_inside n _ _ en En)|]. left. exists s1. split; auto. now apply if_into.
        + apply dl_cons. right. right. split; [now apply (if_inside n _ _ en En)|]. right. exists a. split; auto. now apply if_into.
      - exfalso. eapply k_inside; eauto.
    Qed.
  End Early.
End S.
