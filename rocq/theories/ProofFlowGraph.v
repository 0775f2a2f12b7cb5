(** * Edges and vertices of the flow graph *)
From Verif Require Import Base ModelAST SpecFilter SpecAST SpecCourses SpecFlowGraph ProofAST ProofCourses.

Scheme value_mut := Minimality for value Sort Prop
  with values_mut := Minimality for values Sort Prop
  with test_mut := Minimality for test Sort Prop.
Combined Scheme value_ind3 from value_mut, values_mut, test_mut.
Scheme flow_mut := Minimality for flow Sort Prop
  with flows_mut := Minimality for flows Sort Prop
  with handlers_mut := Minimality for handlers Sort Prop.
Combined Scheme flow_ind3 from flow_mut, flows_mut, handlers_mut.

Local Open Scope Z.
(** What a node asks for: a decision counted, one not counted, none although counted. *)
Definition own (n : node) : Z :=
  Z.of_nat (ccn_visit n) + match n_shape n with CXXForRangeStmt _ _ _ _ => 1 | ForStmt _ _ None _ _ => -1 | _ => 0 end.
Definition asks (n : node) : Z := sum (map own (nodes n)).
Definition all_ask (l : list node) : Z := sum (map asks l).
Lemma sum_app a b : sum (a ++ b) = sum a + sum b.
Proof. induction a; simpl; lia. Qed.
Lemma asks_eq n : asks n = own n + all_ask (kids n).
Proof.
  unfold asks, all_ask. rewrite nodes_eq. cbn [map sum fold_right]. f_equal.
  fold (sum (map own (flat_map nodes (kids n)))).
  induction (kids n) as [|a l IH]; [reflexivity|]. cbn [flat_map map sum fold_right]. rewrite map_app, sum_app, IH. reflexivity.
Qed.
Lemma all_app a b : all_ask (a ++ b) = all_ask a + all_ask b.
Proof. unfold all_ask. now rewrite map_app, sum_app. Qed.
Lemma all_cons a b : all_ask (a :: b) = asks a + all_ask b.
Proof. reflexivity. Qed.
Lemma all_nil : all_ask [] = 0.
Proof. reflexivity. Qed.
Lemma undecided_asks n : undecided n -> asks n = 0.
Proof.
  intros U. unfold asks.
  assert (G : forall m, In m (nodes n) -> own m = 0).
  { intros m I. apply in_nodes in I. destruct (U m I) as [A B]. unfold own.
    destruct (ccn_visit_spec m) as [[_ X]|[-> _]]; [contradiction|]. destruct m as [i t s]. cbn [n_shape].
    destruct s; try reflexivity.
    - destruct cond; [reflexivity|]. exfalso. apply A. constructor.
    - exfalso. apply B. unfold range_for. cbn. eauto. }
  induction (nodes n) as [|a l IH]; [reflexivity|]. cbn [map sum fold_right]. rewrite (G a) by (left; reflexivity).
  fold (sum (map own l)). rewrite IH; [reflexivity|]. intros m I. apply G. now right.
Qed.

Notation len l := (Z.of_nat (length l)).
Ltac sizes := rewrite ?app_length, ?map_length in *; cbn [length] in *; rewrite ?app_length in *; cbn [length] in *;
  rewrite ?map_length, ?app_length in *; cbn [length] in *.
Ltac unfold_kids H := unfold kids; rewrite H; cbn [children opt app];
  rewrite ?all_app, ?all_cons, ?all_nil; cbn [opt]; rewrite ?all_cons, ?all_nil.
Ltac ask H := rewrite asks_eq; unfold_kids H; unfold own, ccn_visit; rewrite H; cbn [binop_eqb binop_eq_dec].

Section S.
  Variable simple : node -> Prop.
  Lemma value_sizes T :
    (forall e i j V E, value simple T e i j V E -> len E = len V + asks e)
    /\ (forall l i j V E, values simple T l i j V E -> len E = len V + all_ask l)
    /\ (forall e i yes no V E, test simple T e i yes no V E -> len E = len V + asks e + 1).
  Proof.
    apply value_ind3; intros.
    - rewrite asks_eq. assert (own e = 0) as ->.
      { unfold in_turn_only in H. unfold own, ccn_visit. unfold isExpr in H. destruct (n_shape e); try discriminate; try contradiction; try reflexivity.
        destruct op; try contradiction; reflexivity. }
      sizes. lia.
    - ask H. sizes. destruct x; cbn [opt] in *; rewrite ?all_cons, ?all_nil in *; lia.
    - ask H. sizes. lia.
    - ask H. sizes. lia.
    - ask H. sizes. lia.
    - rewrite all_nil. reflexivity.
    - rewrite all_cons. sizes. lia.
    - sizes. lia.
    - ask H. lia.
    - ask H. lia.
    - ask H. sizes. lia.
    - ask H. sizes. lia.
  Qed.
  Lemma flow_sizes :
    (forall T n i j V E C D, flow simple T n i j V E C D -> len E + len C = len V + asks n)
    /\ (forall T l i j V E C D, flows simple T l i j V E C D -> len E + len C = len V + all_ask l)
    /\ (forall T l starts j V E C D, handlers simple T l starts j V E C D ->
          len starts = len l /\ len E + len C + len starts = len V + all_ask l).
  Proof.
    apply flow_ind3; intros;
      repeat match goal with
      | K : value simple _ _ _ _ _ _ |- _ => apply (proj1 (value_sizes _)) in K
      | K : values simple _ _ _ _ _ _ |- _ => apply (proj1 (proj2 (value_sizes _))) in K
      | K : test simple _ _ _ _ _ _ _ |- _ => apply (proj2 (proj2 (value_sizes _))) in K
      | K : n_shape _ = _ \/ n_shape _ = _ |- _ => destruct K
      | K : undecided _ |- _ => apply undecided_asks in K
      | K : _ /\ _ |- _ => destruct K
      end;
      try match goal with |- context [asks ?n] => match goal with H : n_shape n = _ |- _ => ask H end end;
      repeat match goal with o : option node |- _ => destruct o; cbn [opt] in * end;
      repeat match goal with K : _ |- _ => rewrite all_cons in K | K : _ |- _ => rewrite all_nil in K end;
      rewrite ?all_cons, ?all_nil;
      try (sizes; lia).
    all: try match goal with K : n_shape ?h = CXXCatchStmt _ _ |- _ => rewrite (asks_eq h); unfold kids; unfold own, ccn_visit; rewrite K
         | K : n_shape ?h = ObjCAtCatchStmt _ _ |- _ => rewrite (asks_eq h); unfold kids; unfold own, ccn_visit; rewrite K end;
      cbn [children opt app] in *; rewrite ?app_nil_r; rewrite ?all_cons, ?all_nil; try (sizes; lia).
    - rewrite asks_eq in H0. unfold kids, own, ccn_visit in H0. rewrite H in H0. cbn [children] in H0. sizes. lia.
    - unfold edge in *. rewrite !app_length, map_length, app_length. cbn [length]. lia.
  Qed.
  Lemma graph_size d V E : flow_graph simple d V E -> len E + 1 = len V + asks d.
  Proof.
    intros (T & params & body & start & W & K & P & F & -> & _). apply (proj1 flow_sizes) in F.
    assert (Q : all_ask params = 0).
    { clear -P. induction params as [|p l IH]; [reflexivity|]. rewrite all_cons, IH by (intros; apply P; now right).
      rewrite (undecided_asks p) by (apply P; now left). reflexivity. }
    sizes. rewrite asks_eq. unfold kids, own, ccn_visit.
    destruct K as [(f & S & G)|(m & S)]; rewrite S; cbn [children opt]; try rewrite G; rewrite all_app, all_cons, all_nil, Q; lia.
  Qed.
End S.

(** The weights summed up are counts. *)
Lemma asks_counts d F R : sublist_where endless_for (nodes d) F -> sublist_where range_for (nodes d) R ->
  asks d + 1 + len F = getCyclomaticComplexity d + len R.
Proof.
  rewrite ccn_nodes. unfold asks. generalize (nodes d). intros l HF HR. revert R HR.
  induction HF as [|x l F A HF IH|x l F A HF IH]; intros R HR; inversion HR; subst; clear HR;
    try match goal with K : sublist_where _ l _ |- _ => apply IH in K end; cbn [map sum fold_right length] in *; try reflexivity;
    unfold list_sum in *; cbn [fold_right] in *; fold (sum (map own l)) in *.
  - destruct A as (? & ? & ? & ? & A), H1 as (? & ? & ? & ? & B). congruence.
  - destruct A as (? & ? & ? & ? & A). assert (own x = Z.of_nat (ccn_visit x) - 1) as -> by (unfold own; rewrite A; reflexivity). lia.
  - destruct H1 as (? & ? & ? & ? & B). assert (own x = Z.of_nat (ccn_visit x) + 1) as -> by (unfold own; rewrite B; reflexivity). lia.
  - assert (match n_shape x with CXXForRangeStmt _ _ _ _ => 1 | ForStmt _ _ None _ _ => -1 | _ => 0 end = 0) as Q.
    { destruct (n_shape x) eqn:Z; try reflexivity; [destruct cond; [reflexivity|]|]; exfalso; [apply A|apply H1]; unfold endless_for, range_for; eauto. }
    assert (own x = Z.of_nat (ccn_visit x)) as -> by (unfold own; rewrite Q; lia). lia.
Qed.

(** ** At most NPath *)
Definition decides (n : node) : Z := getCyclomaticComplexity n - 1.
Definition all_decide (l : list node) : Z := sum (map decides l).
Lemma decides_eq n : decides n = Z.of_nat (ccn_visit n) + all_decide (kids n).
Proof.
  unfold decides, all_decide. rewrite ccn_nodes, nodes_eq. cbn [map list_sum fold_right].
  fold (list_sum (map ccn_visit (flat_map nodes (kids n)))).
  enough (Z.of_nat (list_sum (map ccn_visit (flat_map nodes (kids n)))) = sum (map decides (kids n))) as <- by lia.
  induction (kids n) as [|a l IH]; [reflexivity|]. cbn [flat_map map sum fold_right]. fold (sum (map decides l)).
  rewrite map_app, list_sum_app, <- IH. unfold decides. rewrite ccn_nodes. lia.
Qed.
Lemma decide_app a b : all_decide (a ++ b) = all_decide a + all_decide b.
Proof. unfold all_decide. now rewrite map_app, sum_app. Qed.
Lemma decide_cons a b : all_decide (a :: b) = decides a + all_decide b.
Proof. reflexivity. Qed.
Lemma decide_nil : all_decide [] = 0.
Proof. reflexivity. Qed.
Lemma undecided_decides n : undecided n -> decides n = 0.
Proof.
  intros U. unfold decides. rewrite ccn_nodes.
  assert (G : forall m, In m (nodes n) -> ccn_visit m = 0%nat).
  { intros m I. apply in_nodes in I. destruct (U m I) as [A _]. destruct (ccn_visit_spec m) as [[_ X]|[-> _]]; [contradiction|auto]. }
  enough (list_sum (map ccn_visit (nodes n)) = 0%nat) by lia.
  induction (nodes n) as [|a l IH]; [reflexivity|]. cbn [map list_sum fold_right]. rewrite (G a) by (left; reflexivity).
  apply IH. intros m I. apply G. now right.
Qed.
Lemma all_undecided l : (forall x, In x l -> undecided x) -> all_decide l = 0.
Proof.
  induction l as [|a l IH]; intros H; [reflexivity|]. rewrite decide_cons, IH by (intros; apply H; now right).
  rewrite undecided_decides by (apply H; now left). reflexivity.
Qed.
Ltac decide_as H := rewrite decides_eq; unfold kids, ccn_visit; rewrite H; cbn [children opt app binop_eqb binop_eq_dec];
  rewrite ?decide_app, ?decide_cons, ?decide_nil.
Lemma logical_bound e : logical e -> decides e <= exZ e.
Proof.
  induction 1.
  - rewrite undecided_decides by auto. apply exZ_nonneg.
  - destruct H0; subst; decide_as H; rewrite exZ_eq; unfold logic_weight, logic_sub; rewrite H; cbn [map sum fold_right]; lia.
  - decide_as H. rewrite exZ_eq. unfold logic_weight, logic_sub. rewrite H. cbn [map sum fold_right]. lia.
  - decide_as H. rewrite exZ_eq. unfold logic_weight, logic_sub. rewrite H. cbn [map sum fold_right]. lia.
  - destruct H as [H|[H|H]]; decide_as H; rewrite exZ_eq; unfold logic_weight, logic_sub; rewrite H; cbn [map sum fold_right]; lia.
Qed.
Lemma product_bound l (f : node -> Z) : (forall x, In x l -> 0 <= f x /\ f x + 1 <= npZ x) ->
  sum (map f l) + 1 <= product (map npZ l) /\ 0 <= sum (map f l).
Proof.
  induction l as [|a l IH]; intros H; [cbn; lia|].
  destruct IH as [A B]; [intros; apply H; now right|]. destruct (H a (or_introl eq_refl)).
  cbn [map sum product fold_right]. fold (sum (map f l)) (product (map npZ l)). nia.
Qed.
Lemma decides_nonneg n : 0 <= decides n.
Proof. unfold decides. rewrite ccn_nodes. lia. Qed.
(** The decisions of a statement behind its own label. *)
Definition behind (x : node) : Z := match n_shape x with CaseStmt _ s | DefaultStmt s => decides s | _ => decides x end.
Lemma behind_nonneg x : 0 <= behind x.
Proof. unfold behind. destruct (n_shape x); apply decides_nonneg. Qed.
Definition is_case (x : node) : Z := match n_shape x with CaseStmt _ _ => 1 | _ => 0 end.
Lemma seen_bound n : seen n -> decides n + 1 <= npZ n.
Proof.
  induction 1 as [n U D|n l S H IH|n pre c a e S P L Ha IHa He IHe|n pre c b S P L Hb IHb|n c b S L Hb IHb
    |n i pre c inc b S Hi IHi P L Hb IHb|n e c b S He Hc Hb IHb|n pre c b cov l groups S B P L G D N IHN HV HC IHC HD IHD].
  - rewrite undivided_npZ, undecided_decides by auto. lia.
  - decide_as S. destruct n as [i t s]; cbn in S; subst. cbn [npZ Z.of_nat].
    destruct (product_bound l decides) as [A _]; [|unfold all_decide; lia]. intros x I. split; [apply decides_nonneg|auto].
  - decide_as S. apply logical_bound in L. destruct n as [i t s]; cbn in S; subst. cbn [npZ].
    rewrite (all_undecided pre) by auto. destruct e as [b|]; cbn [opt]; rewrite ?decide_cons, ?decide_nil; [specialize (IHe b eq_refl)|]; lia.
  - decide_as S. apply logical_bound in L. destruct n as [i t s]; cbn in S; subst. cbn [npZ]. rewrite (all_undecided pre) by auto. lia.
  - decide_as S. apply logical_bound in L. destruct n as [i t s]; cbn in S; subst. cbn [npZ]. lia.
  - decide_as S. rewrite (all_undecided pre) by auto.
    assert (C1 : all_decide (opt c) <= oexZ c).
    { destruct c as [c|]; cbn [opt oexZ]; rewrite ?decide_cons, ?decide_nil; [|lia]. pose proof (logical_bound c (L c (or_introl eq_refl))). lia. }
    assert (C2 : all_decide (opt inc) <= oexZ inc).
    { destruct inc as [c'|]; cbn [opt oexZ]; rewrite ?decide_cons, ?decide_nil; [|lia]. pose proof (logical_bound c' (L c' (or_intror eq_refl))). lia. }
    assert (C3 : all_decide (opt i) + 1 <= match i with Some i => npZ i | None => 1 end).
    { destruct i as [x|]; cbn [opt]; rewrite ?decide_cons, ?decide_nil; [|lia]. specialize (IHi x eq_refl). lia. }
    destruct n as [j t s]; cbn in S; subst. cbn [npZ]. lia.
  - decide_as S. rewrite (undecided_decides e), (undecided_decides c) by auto.
    destruct n as [i t s]; cbn in S; subst. cbn [npZ]. lia.
  - decide_as S. rewrite (all_undecided pre) by auto. apply logical_bound in L. rewrite (switch_npZ _ _ _ _ _ _ _ S B G).
    assert (Db : decides b = all_decide l) by (decide_as B; reflexivity). rewrite Db. clear Db.
    assert (X : forall x, In x l -> decides x = is_case x + behind x /\ behind x + 1 <= npZ x).
    { intros x I. unfold is_case, behind. destruct (n_shape x) eqn:Q.
      all: try (split; [lia|]; apply IHN; auto; intros [(? & ? & K)|(? & K)]; congruence).
      - specialize (HV x _ _ I Q). specialize (IHC x _ _ I Q). split.
        + decide_as Q. rewrite undecided_decides by auto. lia.
        + destruct x as [? ? sx]; cbn in Q; subst. exact IHC.
      - specialize (IHD x _ I Q). split.
        + decide_as Q. lia.
        + destruct x as [? ? sx]; cbn in Q; subst. exact IHD. }
    destruct D as (d & ds & Id & Sd). destruct G as (El & _ & G). cbn [app] in El. subst l.
    clear - L X G Id Sd.
    (* one for every group, and one group without a case *)
    assert (Y : all_decide (concat groups) + len groups <= sum (map is_case (concat groups)) + sum (map (fun g => product (map npZ g)) groups)).
    { clear - X. induction groups as [|g gs IH]; [cbn; lia|]. cbn [concat map sum fold_right length].
      rewrite decide_app, map_app, sum_app. fold (sum (map (fun g => product (map npZ g)) gs)).
      assert (forall x, In x g -> In x (concat (g :: gs))) by (intros; cbn; apply in_or_app; now left).
      assert (IH' := IH (fun x I => X x (in_or_app g _ x (or_intror I)))).
      destruct (product_bound g behind) as [A _]; [intros x I; split; [apply behind_nonneg|apply X; auto]|].
      assert (all_decide g = sum (map is_case g) + sum (map behind g)).
      { assert (Z : forall x, In x g -> decides x = is_case x + behind x) by (intros; apply X; auto).
        clear - Z. induction g as [|a g IH]; [reflexivity|]. rewrite decide_cons, IH by (intros; apply Z; now right).
        rewrite (Z a) by (now left). cbn [map sum fold_right]. fold (sum (map is_case g)) (sum (map behind g)). lia. }
      lia. }
    assert (C : sum (map is_case (concat groups)) + 1 <= len groups).
    { clear - G Id Sd.
      assert (W : forall g, In g groups -> 0 <= sum (map is_case g) <= 1 /\ (In d g -> sum (map is_case g) = 0)).
      { intros g I. destruct (G g I) as (c & rest & -> & Lc & R).
        assert (Z : sum (map is_case rest) = 0).
        { clear - R. induction rest as [|a r IH]; [reflexivity|]. cbn [map sum fold_right]. fold (sum (map is_case r)).
          rewrite IH by (intros; apply R; now right). unfold is_case. destruct (n_shape a) eqn:Q; try reflexivity.
          exfalso. apply (R a (or_introl eq_refl)). left. eauto. }
        cbn [map sum fold_right]. fold (sum (map is_case rest)). rewrite Z. split.
        - unfold is_case. destruct (n_shape c); lia.
        - intros [->|J]; [unfold is_case; rewrite Sd; reflexivity|]. exfalso. apply (R d J). right. eauto. }
      assert (B : sum (map is_case (concat groups)) <= len groups).
      { clear - W. induction groups as [|g gs IH]; [cbn; lia|]. cbn [concat]. rewrite map_app, sum_app.
        specialize (IH (fun x I => W x (or_intror I))). destruct (W g (or_introl eq_refl)). cbn [length]. lia. }
      clear G. induction groups as [|g gs IH]; [destruct Id|]. cbn [concat] in *. rewrite map_app, sum_app in *. apply in_app_or in Id.
      destruct (W g (or_introl eq_refl)) as [W1 W2]. cbn [length] in *. destruct Id as [I|I].
      - rewrite W2 by auto.
        assert (sum (map is_case (concat gs)) <= len gs); [|lia]. clear - W.
        induction gs as [|h gs IH]; [cbn; lia|]. cbn [concat]. rewrite map_app, sum_app. cbn [length].
        destruct (W h (or_intror (or_introl eq_refl))). assert (sum (map is_case (concat gs)) <= len gs); [|lia].
        apply IH. intros x [<-|I]; apply W; cbn; auto.
      - assert (sum (map is_case (concat gs)) + 1 <= len gs); [|lia]. apply IH; auto.
        + intros x J. apply W. now right.
        + clear - W. assert (V : forall x, In x gs -> sum (map is_case x) <= 1) by (intros x J; apply (W x (or_intror J))).
          clear W. induction gs as [|h gs IH]; [cbn; lia|]. cbn [concat length]. rewrite map_app, sum_app.
          pose proof (V h (or_introl eq_refl)). specialize (IH (fun x I => V x (or_intror I))). lia. }
    lia.
Qed.
