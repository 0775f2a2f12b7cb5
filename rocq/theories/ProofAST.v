(** * Lemmas about syntax trees and metrics *)
From Verif Require Import Base BaseFacts ModelAST SpecFilter ProofFilter SpecAST.

(** ** Induction and the visitor *)
Lemma node_ind' (P : node -> Prop) :
  (forall n, (forall m, In m (kids n) -> P m) -> P n) -> forall n, P n.
Proof.
  intros H. fix IH 1.
  assert (L : forall l m, In m l -> P m).
  { fix go 1. intros [|x l] m Hm.
    - destruct Hm.
    - destruct Hm as [<-|Hm]; [apply IH | exact (go l m Hm)]. }
  intros [i t s]. apply H. unfold kids. cbn [n_shape].
  destruct s; cbn [children opt app]; intros m Hm;
    repeat match goal with
      | H : In _ (_ ++ _) |- _ => apply in_app_or in H; destruct H as [H|H]
      | H : In _ (_ :: _) |- _ => destruct H as [<-|H]; [apply IH|]
      | H : In _ [] |- _ => destruct H
      | H : In _ (opt ?o) |- _ => destruct o; cbn [opt] in H
      | H : In _ (if ?b then _ else _) |- _ => destruct b
      | H : In _ ?l |- _ => exact (L l m H)
      end.
Qed.

Lemma opt_map {A B} (f : A -> B) o : opt (option_map f o) = map f (opt o).
Proof. destruct o; reflexivity. Qed.
Lemma children_map {A B} (f : A -> B) (s : shape A) : children (shape_map f s) = map f (children s).
Proof.
  destruct s; cbn [children shape_map]; rewrite ?map_app, ?opt_map; cbn [map]; rewrite ?map_app, ?opt_map;
    try reflexivity.
  destruct (f_isDefinition info); rewrite ?opt_map; reflexivity.
Qed.

Lemma nodes_eq n : nodes n = n :: flat_map nodes (kids n).
Proof.
  destruct n as [i t s]. cbn [nodes]. unfold kids. cbn [n_shape].
  now rewrite children_map, flat_map_concat_map.
Qed.

Lemma below_trans a b c : below a b -> below b c -> below a c.
Proof. induction 1; intros; auto. eapply below_child; eauto. Qed.
Lemma in_nodes n m : In m (nodes n) <-> below n m.
Proof.
  split.
  - revert m. induction n as [n IH] using node_ind'. intros m. rewrite nodes_eq. intros [<-|H].
    + constructor.
    + apply in_flat_map in H as (c & Hc & Hm). eapply below_child; eauto.
  - induction 1 as [n|n c m Hc _ IH]; rewrite nodes_eq; simpl; auto.
    right. apply in_flat_map. eauto.
Qed.

(** spread is total and functional when it stays inside the tree. *)
Section Spread.
  Variable sub : node -> list node.
  Hypothesis sub_kids : forall n m, In m (sub n) -> below n m /\ exists c, In c (kids n) /\ below c m.

  Lemma strong_ind (P : node -> Prop) :
    (forall n, (forall c m, In c (kids n) -> below c m -> P m) -> P n) -> forall n, P n.
  Proof.
    intros H n. assert (K : forall m, below n m -> P m); [|apply K; constructor].
    induction n as [n IH] using node_ind'. intros m Hm.
    inversion Hm as [|? c ? Hc Hcm]; subst; eauto.
  Qed.

  Lemma spread_total : forall n, exists l, spread sub n l.
  Proof.
    apply strong_ind. intros n IH.
    assert (K : forall m, In m (sub n) -> exists l, spread sub m l).
    { intros m Hm. destruct (sub_kids _ _ Hm) as (_ & c & Hc & Hcm). eauto. }
    assert (T : exists ls, Forall2 (spread sub) (sub n) ls).
    { revert K. generalize (sub n). induction l as [|a l IHl]; intros K.
      - exists []. constructor.
      - destruct (K a) as (x & Hx); [simpl; auto|]. destruct IHl as (xs & Hxs); [intros; apply K; simpl; auto|].
        exists (x :: xs). constructor; auto. }
    destruct T as (ls & T). exists (n :: concat ls). constructor. auto.
  Qed.
  Lemma spread_det : forall n l1 l2, spread sub n l1 -> spread sub n l2 -> l1 = l2.
  Proof.
    intros n. induction n as [n IH] using strong_ind. intros l1 l2 H1 H2.
    inversion H1 as [? ls1 F1]; inversion H2 as [? ls2 F2]; subst. f_equal. f_equal.
    assert (K : forall m, In m (sub n) -> forall l1 l2, spread sub m l1 -> spread sub m l2 -> l1 = l2).
    { intros m Hm. destruct (sub_kids _ _ Hm) as (_ & c & Hc & Hcm). eauto. }
    clear -F1 F2 K. revert ls1 ls2 F1 F2 K. generalize (sub n).
    induction l as [|a l IHl]; intros ls1 ls2 F1 F2 K; inversion F1; inversion F2; subst; auto.
    f_equal; [eapply K; eauto; simpl; auto|]. apply IHl; auto. intros; eapply K; eauto. simpl; auto.
  Qed.
End Spread.

Lemma kids_sub n m : In m (kids n) -> below n m /\ exists c, In c (kids n) /\ below c m.
Proof.
  intros H. split; [eapply below_child; eauto; constructor|]. exists m. split; auto. constructor.
Qed.
Lemma nodes_spread : forall n, spread kids n (nodes n).
Proof.
  intros n. induction n as [n IH] using node_ind'. rewrite nodes_eq, flat_map_concat_map. constructor.
  revert IH. generalize (kids n). induction l; intros IH; simpl; constructor.
  - apply IH; simpl; auto.
  - apply IHl. intros. apply IH. simpl; auto.
Qed.
Lemma spread_kids n l : spread kids n l <-> l = nodes n.
Proof.
  split; [|intros ->; apply nodes_spread].
  intros H. eapply spread_det; eauto using nodes_spread, kids_sub.
Qed.

Lemma in_turn_all {S} (visit : node -> S -> bool * S) (l : list node) :
  (forall m, In m l -> forall s, traverse visit m s = visit_all visit (nodes m) s) ->
  forall s, in_turn (map (traverse visit) l) s = visit_all visit (flat_map nodes l) s.
Proof.
  induction l as [|a l IH]; intros H s; simpl; auto.
  rewrite H by (simpl; auto).
  assert (A : forall l1 l2 s, visit_all visit (l1 ++ l2) s
                            = let '(go, s') := visit_all visit l1 s in
                              if go then visit_all visit l2 s' else (false, s')).
  { clear. induction l1 as [|x l1 IH]; intros l2 s; simpl; auto.
    destruct (visit x s) as [[] s']; auto. }
  rewrite A. destruct (visit_all visit (nodes a) s) as [[] s']; auto.
  apply IH. intros; apply H; simpl; auto.
Qed.
Lemma traverse_nodes {S} (visit : node -> S -> bool * S) n :
  forall s, traverse visit n s = visit_all visit (nodes n) s.
Proof.
  induction n as [n IH] using node_ind'. intros s. rewrite nodes_eq. destruct n as [i t sh].
  cbn [traverse visit_all]. destruct (visit (Node i t sh) s) as [[] s']; auto.
  rewrite children_map. apply in_turn_all. exact IH.
Qed.
Lemma visit_all_true {S} (visit : node -> S -> bool * S) l :
  (forall m s, In m l -> fst (visit m s) = true) ->
  forall s, visit_all visit l s = (true, fold_left (fun s m => snd (visit m s)) l s).
Proof.
  induction l as [|a l IH]; intros H s; simpl; auto.
  pose proof (H a s (or_introl eq_refl)) as E. destruct (visit a s) as [go s']. simpl in *. subst.
  apply IH. intros; apply H; simpl; auto.
Qed.
Lemma collect_nodes {B} (f : node -> list B) n : collect f n = flat_map f (nodes n).
Proof.
  unfold collect. rewrite traverse_nodes, visit_all_true by auto. cbn [snd].
  assert (G : forall l acc, fold_left (fun s m => s ++ f m) l acc = acc ++ flat_map f l).
  { induction l; intros; simpl; [now rewrite app_nil_r|]. rewrite IHl. now rewrite <- app_assoc. }
  now rewrite G.
Qed.
Lemma found_nodes f n : found f n = existsb f (nodes n).
Proof.
  unfold found. rewrite traverse_nodes. induction (nodes n) as [|a l IH]; simpl; auto.
  destruct (f a); simpl; auto.
Qed.
Lemma found_iff f n : found f n = true <-> exists m, below n m /\ f m = true.
Proof.
  rewrite found_nodes, existsb_exists. split; intros (m & H & K); exists m; split; auto; now apply in_nodes.
Qed.

(** ** Cyclomatic complexity *)
Lemma ccn_visit_spec n : ccn_visit n = 1 /\ decision_point n \/ ccn_visit n = 0 /\ ~ decision_point n.
Proof.
  destruct n as [i t s]; destruct s; unfold ccn_visit; cbn [n_shape];
    try (left; split; [reflexivity|constructor]);
    try (right; split; [reflexivity|intros H; inversion H]).
  destruct op; try (left; split; [reflexivity|constructor]);
    try (right; split; [reflexivity|intros H; inversion H]).
Qed.
Lemma ccn_nodes d : getCyclomaticComplexity d = (1 + Z.of_nat (list_sum (map ccn_visit (nodes d))))%Z.
Proof.
  unfold getCyclomaticComplexity. rewrite traverse_nodes, visit_all_true by auto. cbn [snd].
  assert (G : forall l acc, fold_left (fun c m => c + ccn_visit m) l acc = acc + list_sum (map ccn_visit l)).
  { induction l; intros; simpl; [lia|]. rewrite IHl. lia. }
  rewrite G. lia.
Qed.
Lemma ccn_count l sel : sublist_where decision_point l sel -> list_sum (map ccn_visit l) = length sel.
Proof.
  induction 1; simpl; auto; destruct (ccn_visit_spec x) as [[-> ?]|[-> ?]]; try contradiction; lia.
Qed.
Lemma sublist_exists {A} (P : A -> Prop) (dec : forall x, P x \/ ~ P x) l : exists s, sublist_where P l s.
Proof.
  induction l as [|a l (s & H)]; [exists []; constructor|].
  destruct (dec a); [exists (a :: s); now constructor | exists s; now constructor].
Qed.

(** ** NPath *)
Fixpoint exZ (n : node) : Z :=
  match n with
  | Node _ _ s =>
      match s with
      | ConditionalOperator c t f => exZ c + exZ t + exZ f + 2
      | BinaryOperator BO_LAnd l r | BinaryOperator BO_LOr l r => 1 + exZ l + exZ r
      | ParenExpr e => exZ e
      | ImplicitCastExpr _ e | CStyleCastExpr _ e | OtherCastExpr _ e => exZ e
      | _ => 0
      end
  end%Z.
Definition oexZ (o : option node) : Z := match o with Some e => exZ e | None => 0%Z end.
Fixpoint groupsZ (l : list (bool * Z)) (total internal : Z) : Z :=
  match l with
  | [] => total + internal
  | (isCase, x) :: rest =>
      if isCase then groupsZ rest (total + internal) x else groupsZ rest total (internal * x)
  end%Z.
Fixpoint npZ (n : node) : Z :=
  match n with
  | Node _ _ s =>
      match s with
      | CompoundStmt l => product (map npZ l)
      | IfStmt _ c t e => exZ c + npZ t + match e with Some e => npZ e | None => 1 end
      | WhileStmt _ c b => exZ c + npZ b + 1
      | DoStmt b c => exZ c + npZ b + 1
      | ForStmt i _ c inc b =>
          match i with Some i => npZ i | None => 1 end + oexZ c + oexZ inc + npZ b + 1
      | SwitchStmt _ c b _ =>
          match b with
          | Node _ _ (CompoundStmt l) => groupsZ (map (fun x => (isSwitchCase x, npZ x)) l) (exZ c) 0
          | _ => exZ c + npZ b
          end
      | CaseStmt _ s => npZ s
      | DefaultStmt s => npZ s
      | ObjCForCollectionStmt _ _ b => npZ b + 2
      | _ => 1
      end
  end%Z.

Lemma logic_sub_kids n m : In m (logic_sub n) -> below n m /\ exists c, In c (kids n) /\ below c m.
Proof.
  intros H. apply kids_sub. destruct n as [i t s]; destruct s; cbn in *; try contradiction; auto.
  destruct op; simpl in *; try contradiction; auto.
Qed.
Lemma controlled_kids n m : In m (controlled n) -> below n m /\ exists c, In c (kids n) /\ below c m.
Proof.
  intros H. apply kids_sub. destruct n as [i t s]; destruct s; cbn in *; try contradiction; auto;
    rewrite ?in_app_iff; simpl; auto; tauto.
Qed.

Lemma sum_app l1 l2 : sum (l1 ++ l2) = (sum l1 + sum l2)%Z.
Proof. induction l1; simpl; lia. Qed.
Lemma product_app l1 l2 : product (l1 ++ l2) = (product l1 * product l2)%Z.
Proof.
  unfold product. induction l1 as [|a l1 IH]; cbn [app fold_right]; [ring|]. rewrite IH. ring.
Qed.

(** A function given by own weight plus the sum over [sub]. *)
Lemma spread_weight (sub : node -> list node) (w f : node -> Z) :
  (forall n m, In m (sub n) -> below n m /\ exists c, In c (kids n) /\ below c m) ->
  (forall n, f n = w n + sum (map f (sub n)))%Z ->
  forall n l, spread sub n l -> f n = sum (map w l).
Proof.
  intros Hs Hf n. induction n as [n IH] using strong_ind. intros l H. inversion H as [? ls F]; subst.
  rewrite Hf. cbn [map sum fold_right]. f_equal.
  assert (K : forall m, In m (sub n) -> forall l, spread sub m l -> f m = sum (map w l)).
  { intros m Hm. destruct (Hs _ _ Hm) as (_ & c & Hc & Hcm). eauto. }
  clear -F K. revert ls F K. generalize (sub n). induction l as [|a l IH]; intros ls F K; inversion F; subst.
  - reflexivity.
  - cbn [map concat]. rewrite map_app, sum_app. cbn [sum fold_right]. f_equal.
    + apply K; simpl; auto.
    + apply IH; auto. intros; apply K; simpl; auto.
Qed.

Lemma exZ_eq n : exZ n = (logic_weight n + sum (map exZ (logic_sub n)))%Z.
Proof.
  destruct n as [i t s]; destruct s; cbn [exZ logic_weight logic_sub n_shape map sum fold_right]; try lia.
  destruct op; cbn [map sum fold_right]; lia.
Qed.
Lemma condition_operators_exZ e k : condition_operators e k <-> k = exZ e.
Proof.
  split.
  - intros (l & H & ->). symmetry. eapply spread_weight; eauto using logic_sub_kids, exZ_eq.
  - intros ->. destruct (spread_total logic_sub logic_sub_kids e) as (l & H). exists l. split; auto.
    eapply spread_weight; eauto using logic_sub_kids, exZ_eq.
Qed.
Lemma exZ_nonneg e : (0 <= exZ e)%Z.
Proof.
  destruct (spread_total logic_sub logic_sub_kids e) as (l & H).
  rewrite (spread_weight _ logic_weight exZ logic_sub_kids exZ_eq _ _ H).
  clear. induction l; simpl; [lia|].
  assert (0 <= logic_weight a)%Z; [|lia]. destruct a as [i t s]; destruct s; try (cbn; lia); destruct op; cbn; lia.
Qed.

Lemma isSwitchCase_iff n : isSwitchCase n = true <-> case_label n.
Proof.
  destruct n as [i t s]; unfold case_label; destruct s; simpl;
    split; intros H; try discriminate; eauto; destruct H as [(v & s & H)|(s & H)]; discriminate.
Qed.

(** Group decomposition and the loop. *)
Lemma groups_prefix f l total :
  (forall x, In x l -> isSwitchCase x = false) ->
  groupsZ (map (fun x => (isSwitchCase x, f x)) l) total 0 = total.
Proof.
  revert total. induction l as [|a l IH]; intros total H; simpl; [lia|].
  rewrite (H a) by (simpl; auto). apply IH. intros; apply H; simpl; auto.
Qed.
Lemma groups_app f l1 l2 total internal :
  (forall x, In x l1 -> isSwitchCase x = false) ->
  groupsZ (map (fun x => (isSwitchCase x, f x)) (l1 ++ l2)) total internal
  = groupsZ (map (fun x => (isSwitchCase x, f x)) l2) total (internal * product (map f l1)).
Proof.
  revert internal. induction l1 as [|a l IH]; intros internal H; cbn [app map groupsZ product fold_right];
    [now rewrite Z.mul_1_r|].
  rewrite (H a) by (simpl; auto). rewrite IH by (intros; apply H; simpl; auto).
  f_equal. unfold product. ring.
Qed.
Lemma groups_sum f groups total internal :
  (forall g, In g groups -> exists c rest, g = c :: rest /\ isSwitchCase c = true
                              /\ forall x, In x rest -> isSwitchCase x = false) ->
  groupsZ (map (fun x => (isSwitchCase x, f x)) (concat groups)) total internal
  = (total + internal + sum (map (fun g => product (map f g)) groups))%Z.
Proof.
  revert total internal. induction groups as [|g groups IH]; intros total internal H; simpl; [lia|].
  destruct (H g (or_introl eq_refl)) as (c & rest & -> & Hc & Hr).
  cbn [app map]. cbn [groupsZ]. rewrite Hc.
  rewrite groups_app by auto. rewrite IH by (intros; apply H; simpl; auto).
  cbn [product fold_right map]. unfold product. lia.
Qed.
Lemma groups_exist l : exists prefix groups, case_groups l prefix groups.
Proof.
  induction l as [|a l (p & g & E & Hp & Hg)].
  - exists [], []. split; [reflexivity|]. split; intros ? [].
  - destruct (isSwitchCase a) eqn:Ea.
    + exists [], ((a :: p) :: g). split; [simpl; now rewrite E|]. split; [intros ? []|].
      intros x [<-|Hx]; auto. exists a, p. split; [reflexivity|]. split; auto. now apply isSwitchCase_iff.
    + exists (a :: p), g. split; [simpl; now rewrite E|]. split; auto.
      intros x [<-|Hx]; auto. rewrite <- isSwitchCase_iff. congruence.
Qed.
Lemma not_case x : ~ case_label x -> isSwitchCase x = false.
Proof. rewrite <- isSwitchCase_iff. destruct (isSwitchCase x); auto. intros H; destruct H; auto. Qed.
Lemma groups_case f l p g total : case_groups l p g ->
  groupsZ (map (fun x => (isSwitchCase x, f x)) l) total 0
  = (total + sum (map (fun g => product (map f g)) g))%Z.
Proof.
  intros (-> & Hp & Hg). rewrite groups_app by auto using not_case. rewrite groups_sum.
  - lia.
  - intros x Hx. destruct (Hg x Hx) as (c & r & -> & Hc & Hr). exists c, r. split; auto.
    split; [now apply isSwitchCase_iff|]. auto using not_case.
Qed.

Lemma below_kid2 n a b : In a (kids n) -> In b (kids a) -> exists c, In c (kids n) /\ below c b.
Proof. intros H K. exists a. split; auto. eapply below_child; eauto. constructor. Qed.

Lemma forall2_map {A B} (R : A -> B -> Prop) (f : A -> B) l vs :
  (forall a, In a l -> forall v, R a v -> v = f a) -> Forall2 R l vs -> vs = map f l.
Proof.
  intros H F. induction F; simpl; auto. f_equal; [apply H; simpl; auto|].
  apply IHF. intros; apply H; simpl; auto.
Qed.
Lemma forall2_map_intro {A B} (R : A -> B -> Prop) (f : A -> B) l :
  (forall a, In a l -> R a (f a)) -> Forall2 R l (map f l).
Proof.
  induction l; intros H; simpl; constructor; [apply H; simpl; auto|]. apply IHl. intros; apply H; simpl; auto.
Qed.
Lemma in_groups {A} (l p : list A) gs g x : l = p ++ concat gs -> In g gs -> In x g -> In x l.
Proof. intros -> Hg Hx. apply in_or_app. right. apply in_concat. eauto. Qed.

Ltac inkids := cbn; rewrite ?in_app_iff; cbn; auto 8.
Lemma paths_npZ : forall n v, paths n v -> v = npZ n.
Proof.
  intros n. induction n as [n IH] using strong_ind. intros v H.
  assert (K : forall m, In m (kids n) -> forall v, paths m v -> v = npZ m).
  { intros m Hm. apply (IH m m Hm). constructor. }
  inversion H; subst; cbn [npZ];
    repeat match goal with
    | C : condition_operators _ _ |- _ => apply condition_operators_exZ in C; subst
    | C : paths ?m ?u |- _ =>
        lazymatch m with n => fail | _ => apply K in C; [subst u|inkids] end
    end; try reflexivity.
  - f_equal. eapply forall2_map; [|eassumption]. intros a Ha u Hu. apply K; auto.
  - repeat match goal with
    | O : optional _ _ _ _ |- _ => inversion O; clear O; subst
    end; cbn [oexZ];
    repeat match goal with
    | C : condition_operators _ _ |- _ => apply condition_operators_exZ in C; subst
    | C : paths ?m ?u |- _ => apply K in C; [subst u|inkids]
    end; reflexivity.
  - match goal with G : case_groups _ _ _ |- _ => rewrite (groups_case npZ _ _ _ (exZ c) G);
      destruct G as (E & _ & _) end.
    do 2 f_equal. rewrite <- (map_map (map npZ) product). f_equal.
    eapply forall2_map; [|eassumption]. intros g Hg us Hus. eapply forall2_map; [|eassumption].
    intros a Ha u Hu. eapply IH; [| |exact Hu].
    + unfold kids. cbn. rewrite in_app_iff. right. right. left. reflexivity.
    + eapply below_child; [|constructor]. cbn. eapply in_groups; eauto.
  - destruct b as [j t' sb]. destruct sb; try reflexivity. exfalso. apply H1. eexists. reflexivity.
  - destruct n as [i t s]; destruct s; cbn in *; try reflexivity; tauto.
Qed.

Lemma paths_intro : forall n, paths n (npZ n).
Proof.
  intros n. induction n as [n IH] using strong_ind.
  assert (K : forall m, In m (kids n) -> paths m (npZ m)).
  { intros m Hm. apply (IH m m Hm). constructor. }
  assert (C : forall e, condition_operators e (exZ e)) by (intros; now apply condition_operators_exZ).
  assert (CO : forall o, optional condition_operators 0 o (oexZ o)).
  { intros [e|]; [apply optional_some, C | apply optional_none]. }
  destruct n as [i t s]. destruct s; cbn [npZ];
    try (apply paths_other; intros []; fail).
  - constructor. apply forall2_map_intro. auto.
  - destruct elseS; constructor; auto; apply K; inkids.
  - constructor; auto; apply K; inkids.
  - constructor; auto; apply K; inkids.
  - constructor; auto; [|apply K; inkids].
    destruct init; constructor. apply K; inkids.
  - constructor; auto; apply K; inkids.
  - destruct body as [j t' sb]. destruct sb;
      try (constructor; [auto|intros (l & E); discriminate E|apply K; inkids]; fail).
    destruct (groups_exist body) as (p & g & G).
    rewrite (groups_case npZ _ _ _ (exZ cond) G), <- (map_map (map npZ) product).
    eapply paths_switch; eauto. apply forall2_map_intro. intros x Hx. apply forall2_map_intro.
    intros a Ha. destruct G as (E & _ & _). eapply IH.
    + unfold kids. cbn. rewrite in_app_iff. right. right. left. reflexivity.
    + eapply below_child; [|constructor]. cbn. eapply in_groups; eauto.
  - constructor. apply K; inkids.
  - constructor. apply K; inkids.
Qed.
Lemma paths_iff n v : paths n v <-> v = npZ n.
Proof. split; [apply paths_npZ|]. intros ->. apply paths_intro. Qed.

(** The int computation. *)
Lemma to_int_val z v : to_int z = Val v -> v = z.
Proof. unfold to_int. destruct (in_intb z); congruence. Qed.
Lemma iadd_val a b v : a +! b = Val v -> exists x y, a = Val x /\ b = Val y /\ v = (x + y)%Z.
Proof. destruct a, b; simpl; try discriminate. intros H. apply to_int_val in H. eauto. Qed.
Lemma imul_val a b v : a *! b = Val v -> exists x y, a = Val x /\ b = Val y /\ v = (x * y)%Z.
Proof. destruct a, b; simpl; try discriminate. intros H. apply to_int_val in H. eauto. Qed.

Ltac ivals := repeat match goal with
  | H : _ +! _ = Val _ |- _ => apply iadd_val in H; destruct H as (? & ? & ? & ? & ->)
  | H : Val ?x = Val ?y |- _ => assert (x = y) by congruence; clear H; subst
  end.
Lemma nPath_expr_val e : forall v, nPath_expr e = Val v -> v = exZ e.
Proof.
  induction e as [e IH] using node_ind'. intros v H. destruct e as [i t s]. destruct s; cbn [nPath_expr exZ] in *;
    try (ivals; reflexivity).
  - destruct op; ivals;
      repeat match goal with H : nPath_expr _ = Val _ |- _ => apply IH in H; [subst|inkids] end; reflexivity.
  - ivals; repeat match goal with H : nPath_expr _ = Val _ |- _ => apply IH in H; [subst|inkids] end; reflexivity.
  - apply IH; auto; inkids.
  - apply IH; auto; inkids.
  - apply IH; auto; inkids.
  - apply IH; auto; inkids.
Qed.
Lemma fold_imul_val f l : (forall x, In x l -> forall v, nPath x = Val v -> v = f x) ->
  forall a v, fold_left imul (map nPath l) (Val a) = Val v -> v = (a * product (map f l))%Z.
Proof.
  induction l as [|x l IH]; intros H a v E; cbn [map fold_left product fold_right] in *.
  - injection E as <-. ring.
  - destruct (Val a *! nPath x) as [y|w|] eqn:M.
    + apply IH in E; [|intros; apply H; simpl; auto]. apply imul_val in M as (a' & b & Ea & Eb & ->).
      injection Ea as <-. apply H in Eb; [|simpl; auto]. subst. unfold product. ring.
    + exfalso. revert E. clear. revert v. induction (map nPath l); simpl; intros; [discriminate|eauto].
    + exfalso. revert E. clear. revert v. induction (map nPath l); simpl; intros; [discriminate|eauto].
Qed.
Lemma switchGroups_val f l : (forall x, In x l -> forall v, nPath x = Val v -> v = f x) ->
  forall total internal v,
  switchGroups (map (fun x => (isSwitchCase x, nPath x)) l) total internal = Val v ->
  exists x y, total = Val x /\ internal = Val y
  /\ v = groupsZ (map (fun x => (isSwitchCase x, f x)) l) x y.
Proof.
  induction l as [|a l IH]; intros H total internal v E; cbn [map switchGroups groupsZ] in *.
  - apply iadd_val in E as (x & y & -> & -> & ->). eauto.
  - destruct (isSwitchCase a).
    + apply IH in E as (x & y & T & I & ->); [|intros; apply H; simpl; auto].
      apply iadd_val in T as (p & q & -> & -> & ->). exists p, q. apply H in I; [|simpl; auto]. subst. auto.
    + apply IH in E as (x & y & T & I & ->); [|intros; apply H; simpl; auto].
      apply imul_val in I as (p & q & -> & Ea & ->). apply H in Ea; [|simpl; auto]. subst. eauto.
Qed.
Lemma nPath_val n : forall v, nPath n = Val v -> v = npZ n.
Proof.
  induction n as [n IH] using strong_ind. intros v H.
  assert (K : forall m, In m (kids n) -> forall v, nPath m = Val v -> v = npZ m).
  { intros m Hm. apply (IH m m Hm). constructor. }
  destruct n as [i t s]. destruct s; cbn [nPath npZ] in *; try (ivals; reflexivity).
  - apply (fold_imul_val npZ) in H; auto. lia.
  - ivals. destruct elseS; ivals;
      repeat match goal with
      | H : nPath_expr _ = Val _ |- _ => apply nPath_expr_val in H; subst
      | H : nPath _ = Val _ |- _ => apply K in H; [subst|inkids] end; reflexivity.
  - ivals; repeat match goal with
      | H : nPath_expr _ = Val _ |- _ => apply nPath_expr_val in H; subst
      | H : nPath _ = Val _ |- _ => apply K in H; [subst|inkids] end; reflexivity.
  - ivals; repeat match goal with
      | H : nPath_expr _ = Val _ |- _ => apply nPath_expr_val in H; subst
      | H : nPath _ = Val _ |- _ => apply K in H; [subst|inkids] end; reflexivity.
  - ivals. destruct init, cond, inc; cbn [nPath_optexpr oexZ] in *; ivals; 
      repeat match goal with
      | H : nPath_expr _ = Val _ |- _ => apply nPath_expr_val in H; subst
      | H : nPath _ = Val _ |- _ => apply K in H; [subst|inkids] end; reflexivity.
  - ivals; repeat match goal with
      | H : nPath_expr _ = Val _ |- _ => apply nPath_expr_val in H; subst
      | H : nPath _ = Val _ |- _ => apply K in H; [subst|inkids] end; reflexivity.
  - destruct body as [j t' sb]. destruct sb;
      try (ivals; repeat match goal with
      | H : nPath_expr _ = Val _ |- _ => apply nPath_expr_val in H; subst
      | H : nPath _ = Val _ |- _ => apply K in H; [subst|inkids] end; reflexivity).
    apply (switchGroups_val npZ) in H as (x & y & Hx & Hy & ->).
    + injection Hy as <-. apply nPath_expr_val in Hx. subst. reflexivity.
    + intros m Hm. eapply IH.
      * unfold kids. cbn. rewrite in_app_iff. right. right. left. reflexivity.
      * eapply below_child; [|constructor]. exact Hm.
  - apply K; auto; inkids.
  - apply K; auto; inkids.
Qed.

(** Positivity and exactness. *)
Lemma product_ge1 l : (forall x, In x l -> 1 <= x)%Z -> (1 <= product l)%Z.
Proof.
  unfold product. induction l as [|a l IH]; intros H; cbn [fold_right]; [lia|].
  assert (1 <= a)%Z by (apply H; simpl; auto).
  assert (1 <= fold_right Z.mul 1 l)%Z by (apply IH; intros; apply H; simpl; auto). nia.
Qed.
Lemma product_ge0 l : (forall x, In x l -> 0 <= x)%Z -> (0 <= product l)%Z.
Proof.
  unfold product. induction l as [|a l IH]; intros H; cbn [fold_right]; [lia|].
  assert (0 <= a)%Z by (apply H; simpl; auto).
  assert (0 <= fold_right Z.mul 1 l)%Z by (apply IH; intros; apply H; simpl; auto). nia.
Qed.
Lemma sum_ge0 l : (forall x, In x l -> 0 <= x)%Z -> (0 <= sum l)%Z.
Proof.
  induction l as [|a l IH]; intros H; cbn [sum fold_right]; [lia|].
  assert (0 <= a)%Z by (apply H; simpl; auto).
  assert (0 <= sum l)%Z by (apply IH; intros; apply H; simpl; auto). unfold sum in *. lia.
Qed.
Lemma oexZ_nonneg o : (0 <= oexZ o)%Z.
Proof. destruct o; simpl; [apply exZ_nonneg|lia]. Qed.
Lemma in_body2 pre (c b x : node) i t cov : In x (kids b) ->
  below b x /\ In b (kids (Node i t (SwitchStmt pre c b cov))).
Proof.
  intros H. split.
  - eapply below_child; eauto. constructor.
  - unfold kids; cbn. rewrite in_app_iff. simpl. auto.
Qed.

Lemma npZ_nonneg n : (0 <= npZ n)%Z.
Proof.
  induction n as [n IH] using strong_ind.
  assert (K : forall m, In m (kids n) -> (0 <= npZ m)%Z).
  { intros m Hm. apply (IH m m Hm). constructor. }
  destruct n as [i t s]. destruct s; cbn [npZ]; try lia;
    repeat match goal with |- context[exZ ?e] =>
      lazymatch goal with H : (0 <= exZ e)%Z |- _ => fail | _ => pose proof (exZ_nonneg e) end end.
  - apply product_ge0. intros x Hx. apply in_map_iff in Hx as (m & <- & Hm). auto.
  - assert (0 <= npZ thenS)%Z by (apply K; inkids).
    destruct elseS; [assert (0 <= npZ n)%Z by (apply K; inkids)|]; lia.
  - assert (0 <= npZ body)%Z by (apply K; inkids). lia.
  - assert (0 <= npZ body)%Z by (apply K; inkids). lia.
  - assert (0 <= npZ body)%Z by (apply K; inkids).
    pose proof (oexZ_nonneg cond). pose proof (oexZ_nonneg inc).
    destruct init; [assert (0 <= npZ n)%Z by (apply K; inkids)|]; lia.
  - assert (0 <= npZ body)%Z by (apply K; inkids). lia.
  - assert (B : (0 <= npZ body)%Z) by (apply K; inkids).
    destruct body as [j t' sb]; destruct sb; try (cbn [npZ] in *; lia).
    destruct (groups_exist body) as (p & g & G). rewrite (groups_case npZ _ _ _ (exZ cond) G).
    assert (0 <= sum (map (fun g => product (map npZ g)) g))%Z; [|pose proof (exZ_nonneg cond); lia].
    apply sum_ge0. intros x Hx. apply in_map_iff in Hx as (y & <- & Hy). apply product_ge0.
    intros z Hz. apply in_map_iff in Hz as (w & <- & Hw).
    destruct (in_body2 pre cond (Node j t' (CompoundStmt body)) w i t allEnumCasesCovered) as (Hb & Hk).
    { destruct G as (E & _). cbn. eapply in_groups; eauto. }
    eapply IH; eauto.
  - apply K; inkids.
  - apply K; inkids.
Qed.

Lemma sum_le_in l x : (forall x, In x l -> 0 <= x)%Z -> In x l -> (x <= sum l)%Z.
Proof.
  induction l as [|a l IH]; intros H Hx; [destruct Hx|]. destruct Hx as [->|Hx]; cbn [sum fold_right].
  - assert (0 <= sum l)%Z by (apply sum_ge0; intros; apply H; simpl; auto). unfold sum in *. lia.
  - assert (0 <= a)%Z by (apply H; simpl; auto).
    assert (x <= sum l)%Z by (apply IH; auto; intros; apply H; simpl; auto). unfold sum in *. lia.
Qed.
Lemma npZ_positive n : switches_labelled n -> (1 <= npZ n)%Z.
Proof.
  induction n as [n IH] using strong_ind. intros HL.
  assert (IH' : forall c m, In c (kids n) -> below c m -> (1 <= npZ m)%Z).
  { intros c m Hc Hm. eapply IH; eauto. red. intros. eapply HL. eapply below_child; eauto.
    eapply below_trans; eauto. }
  assert (K : forall m, In m (kids n) -> (1 <= npZ m)%Z).
  { intros m Hm. apply (IH' m m Hm). constructor. }
  clear IH. destruct n as [i t s]. destruct s; cbn [npZ]; try lia;
    repeat match goal with |- context[exZ ?e] =>
      lazymatch goal with H : (0 <= exZ e)%Z |- _ => fail | _ => pose proof (exZ_nonneg e) end end.
  - apply product_ge1. intros x Hx. apply in_map_iff in Hx as (m & <- & Hm). auto.
  - assert (1 <= npZ thenS)%Z by (apply K; inkids).
    destruct elseS; [assert (1 <= npZ n)%Z by (apply K; inkids)|]; lia.
  - assert (1 <= npZ body)%Z by (apply K; inkids). lia.
  - assert (1 <= npZ body)%Z by (apply K; inkids). lia.
  - assert (1 <= npZ body)%Z by (apply K; inkids).
    pose proof (oexZ_nonneg cond). pose proof (oexZ_nonneg inc).
    destruct init; [assert (1 <= npZ n)%Z by (apply K; inkids)|]; lia.
  - assert (1 <= npZ body)%Z by (apply K; inkids). lia.
  - assert (B : (1 <= npZ body)%Z) by (apply K; inkids).
    destruct body as [j t' sb]; destruct sb; try (cbn [npZ] in *; lia).
    destruct (HL _ _ _ _ _ _ _ _ (below_self _)) as (x & Hx & Cx).
    destruct (groups_exist body) as (p & g & G). rewrite (groups_case npZ _ _ _ (exZ cond) G).
    pose proof (exZ_nonneg cond).
    assert (V : forall h, In h g -> (1 <= product (map npZ h))%Z).
    { intros h Hh. apply product_ge1. intros z Hz. apply in_map_iff in Hz as (w & <- & Hw).
      destruct (in_body2 pre cond (Node j t' (CompoundStmt body)) w i t allEnumCasesCovered) as (Hb & Hk).
      { destruct G as (E & _). cbn. eapply in_groups; eauto. }
      eapply IH'; eauto. }
    destruct G as (E & Hp & Hg). rewrite E in Hx. apply in_app_or in Hx as [Hx|Hx].
    { exfalso. eapply Hp; eauto. }
    apply in_concat in Hx as (h & Hh & _).
    assert (product (map npZ h) <= sum (map (fun g => product (map npZ g)) g))%Z.
    { apply sum_le_in; [|apply in_map_iff; eauto].
      intros z Hz. apply in_map_iff in Hz as (w & <- & Hw). pose proof (V w Hw). lia. }
    pose proof (V h Hh). lia.
  - apply K; inkids.
  - apply K; inkids.
Qed.

Lemma to_int_iff z : (0 <= z)%Z -> to_int z = if (z <=? INT_MAX)%Z then Val z else UB.
Proof.
  intros H. unfold to_int, in_intb. replace (INT_MIN <=? z)%Z with true; auto.
  symmetry. apply Z.leb_le. unfold INT_MIN. lia.
Qed.
Lemma iadd_to_int a b : (0 <= a)%Z -> (0 <= b)%Z -> to_int a +! to_int b = to_int (a + b).
Proof.
  intros Ha Hb. rewrite (to_int_iff a), (to_int_iff b), (to_int_iff (a + b)) by lia.
  destruct (Z.leb_spec a INT_MAX), (Z.leb_spec b INT_MAX), (Z.leb_spec (a + b) INT_MAX); cbn; try lia; auto.
  - rewrite to_int_iff by lia. now rewrite (proj2 (Z.leb_le _ _)) by lia.
  - rewrite to_int_iff by lia. now rewrite (proj2 (Z.leb_gt _ _)) by lia.
Qed.
Lemma imul_to_int a b : (1 <= a)%Z -> (1 <= b)%Z -> to_int a *! to_int b = to_int (a * b).
Proof.
  intros Ha Hb. rewrite (to_int_iff a), (to_int_iff b), (to_int_iff (a * b)) by nia.
  destruct (Z.leb_spec a INT_MAX), (Z.leb_spec b INT_MAX), (Z.leb_spec (a * b) INT_MAX); cbn; try nia; auto.
  - rewrite to_int_iff by nia. now rewrite (proj2 (Z.leb_le _ _)) by nia.
  - rewrite to_int_iff by nia. now rewrite (proj2 (Z.leb_gt _ _)) by nia.
Qed.
Lemma nPath_expr_exact e : nPath_expr e = to_int (exZ e).
Proof.
  induction e as [e IH] using node_ind'. destruct e as [i t s]. destruct s; cbn [nPath_expr exZ];
    try reflexivity.
  - change (Val 1%Z) with (to_int 1).
    destruct op; try reflexivity; rewrite (IH lhs), (IH rhs) by inkids;
      pose proof (exZ_nonneg lhs); pose proof (exZ_nonneg rhs); now rewrite !iadd_to_int by lia.
  - change (Val 2%Z) with (to_int 2). rewrite (IH cond), (IH trueE), (IH falseE) by inkids.
    pose proof (exZ_nonneg cond); pose proof (exZ_nonneg trueE); pose proof (exZ_nonneg falseE);
      now rewrite !iadd_to_int by lia.
  - apply IH; inkids.
  - apply IH; inkids.
  - apply IH; inkids.
  - apply IH; inkids.
Qed.
Lemma oexpr_exact o : nPath_optexpr o = to_int (oexZ o).
Proof. destruct o; simpl; [apply nPath_expr_exact|reflexivity]. Qed.
Lemma fold_imul_exact l : (forall x, In x l -> nPath x = to_int (npZ x) /\ (1 <= npZ x)%Z) ->
  forall a, (1 <= a)%Z -> fold_left imul (map nPath l) (to_int a) = to_int (a * product (map npZ l)).
Proof.
  unfold product. induction l as [|x l IH]; intros H a Ha; cbn [map fold_left fold_right].
  - f_equal; ring.
  - destruct (H x) as (E & P); [simpl; auto|]. rewrite E, imul_to_int by auto.
    rewrite IH; [f_equal; ring| |nia]. intros; apply H; simpl; auto.
Qed.
Lemma switchGroups_exact l : (forall x, In x l -> nPath x = to_int (npZ x) /\ (1 <= npZ x)%Z) ->
  forall total internal, (0 <= total)%Z -> (1 <= internal)%Z ->
  switchGroups (map (fun x => (isSwitchCase x, nPath x)) l) (to_int total) (to_int internal)
  = to_int (groupsZ (map (fun x => (isSwitchCase x, npZ x)) l) total internal).
Proof.
  induction l as [|a l IH]; intros H total internal Ht Hi; cbn [map switchGroups groupsZ].
  - apply iadd_to_int; lia.
  - destruct (H a) as (E & P); [simpl; auto|].
    destruct (isSwitchCase a).
    + rewrite iadd_to_int, E by lia. apply IH; try lia. intros; apply H; simpl; auto.
    + rewrite E, imul_to_int by lia. apply IH; try nia. intros; apply H; simpl; auto.
Qed.
Lemma starts_labelled n : switches_start_with_label n -> switches_labelled n.
Proof. intros H i t pre c j t' l cov B. destruct (H _ _ _ _ _ _ _ _ B) as (x & r & -> & C). exists x. simpl; auto. Qed.
Lemma nPath_exact n : switches_start_with_label n -> nPath n = to_int (npZ n).
Proof.
  induction n as [n IH] using strong_ind. intros HL.
  assert (IH' : forall c m, In c (kids n) -> below c m -> nPath m = to_int (npZ m) /\ (1 <= npZ m)%Z).
  { intros c m Hc Hm. assert (L : switches_start_with_label m).
    { red. intros. eapply HL. eapply below_child; eauto. eapply below_trans; eauto. }
    split; [eapply IH; eauto|]. apply npZ_positive, starts_labelled, L. }
  assert (K : forall m, In m (kids n) -> nPath m = to_int (npZ m) /\ (1 <= npZ m)%Z).
  { intros m Hm. apply (IH' m m Hm). constructor. }
  clear IH. destruct n as [i t s].
  destruct s; cbn [nPath npZ]; change (Val 1%Z) with (to_int 1); change (Val 2%Z) with (to_int 2);
    try reflexivity.
  - rewrite fold_imul_exact by (auto; lia). f_equal. lia.
  - rewrite nPath_expr_exact. destruct (K thenS) as (-> & P1); [inkids|].
    pose proof (exZ_nonneg cond).
    destruct elseS; [destruct (K n) as (-> & P2); [inkids|]|]; now rewrite !iadd_to_int by lia.
  - rewrite nPath_expr_exact. destruct (K body) as (-> & P1); [inkids|]. pose proof (exZ_nonneg cond).
    now rewrite !iadd_to_int by lia.
  - rewrite nPath_expr_exact. destruct (K body) as (-> & P1); [inkids|]. pose proof (exZ_nonneg cond).
    now rewrite !iadd_to_int by lia.
  - rewrite !oexpr_exact. pose proof (oexZ_nonneg cond). pose proof (oexZ_nonneg inc).
    destruct (K body) as (-> & P1); [inkids|].
    destruct init; [destruct (K n) as (-> & P2); [inkids|]|]; now rewrite !iadd_to_int by lia.
  - destruct (K body) as (-> & P1); [inkids|]. now rewrite !iadd_to_int by lia.
  - pose proof (exZ_nonneg cond). destruct (K body) as (Hb & P1); [inkids|].
    destruct body as [j t' sb]; destruct sb;
      try (rewrite nPath_expr_exact, Hb; now rewrite !iadd_to_int by lia).
    destruct (HL _ _ _ _ _ _ _ _ (below_self _)) as (x & r & -> & Cx).
    apply isSwitchCase_iff in Cx. cbn [map switchGroups groupsZ]. rewrite Cx.
    rewrite nPath_expr_exact. change (Val 0%Z) with (to_int 0). rewrite iadd_to_int by lia.
    assert (V : forall w, In w (x :: r) -> nPath w = to_int (npZ w) /\ (1 <= npZ w)%Z).
    { intros w Hw.
      destruct (in_body2 pre cond (Node j t' (CompoundStmt (x :: r))) w i t allEnumCasesCovered) as (B1 & B2);
        [exact Hw|]. eapply IH'; eauto. }
    destruct (V x) as (-> & Px); [simpl; auto|].
    apply switchGroups_exact; try lia. intros; apply V; simpl; auto.
  - apply K; inkids.
  - apply K; inkids.
Qed.

(** ** NCSS *)
Lemma fold_add_sum l : forall a, fold_left (fun acc x => (acc + x)%Z) l a = (a + sum l)%Z.
Proof. induction l as [|x l IH]; intros; cbn [fold_left sum fold_right]; [lia|]. rewrite IH. unfold sum. lia. Qed.
Lemma ncss_eq n : ncss n = (own_ncss n + sum (map ncss (controlled n)))%Z.
Proof.
  destruct n as [i t s]; destruct s; cbn [ncss own_ncss controlled n_shape];
    rewrite ?fold_add_sum; unfold sum; cbn [map fold_right]; try lia.
  - destruct elseS; cbn [opt map fold_right]; lia.
  - rewrite map_app. fold (sum (map ncss catches ++ map ncss (opt finally))). rewrite sum_app.
    unfold sum. destruct finally; cbn [opt map fold_right]; lia.
Qed.
Lemma own_ncss_nonneg n : (0 <= own_ncss n)%Z.
Proof. destruct n as [i t s]; destruct s; cbn; try lia. destruct elseS; lia. Qed.

(** ** Depth *)
Lemma upd_max a b : upd a b = Nat.max a b.
Proof. unfold upd. destruct (Nat.ltb_spec a b); lia. Qed.
Lemma fold_upd l : forall a, fold_left upd l a = Nat.max a (list_max l).
Proof. induction l as [|x l IH]; intros; cbn [fold_left list_max fold_right]; [lia|]. rewrite IH, upd_max. unfold list_max. lia. Qed.
Lemma depth_eq n : depth n = (if is_brace n then 1 else 0) + list_max (map depth (controlled n)).
Proof.
  destruct n as [i t s]; destruct s; cbn [depth controlled n_shape is_brace];
    rewrite ?fold_upd; unfold list_max; cbn [map fold_right]; try lia.
  - destruct elseS as [e|]; cbn [opt map fold_right].
    + destruct (Nat.ltb_spec (depth e) (depth thenS)); lia.
    + destruct (Nat.ltb_spec 0 (depth thenS)); lia.
  - rewrite map_app. fold (list_max (map depth catches)). fold (list_max (map depth catches ++ map depth (opt finally))).
    rewrite list_max_app. destruct finally as [f|]; cbn [opt map list_max fold_right].
    + destruct (Nat.ltb_spec (depth f) (Nat.max (depth body) (list_max (map depth catches)))); lia.
    + destruct (Nat.ltb_spec 0 (Nat.max (depth body) (list_max (map depth catches)))); lia.
Qed.
Lemma list_max_in l : l <> [] -> In (list_max l) l.
Proof.
  induction l as [|a l IH]; [congruence|]. intros _. destruct l as [|b l].
  - simpl. left. lia.
  - change (list_max (a :: b :: l)) with (Nat.max a (list_max (b :: l))).
    destruct (Nat.max_spec a (list_max (b :: l))) as [[_ ->]|[_ ->]]; [right; apply IH; discriminate|left; reflexivity].
Qed.
Lemma list_max_ge l x : In x l -> x <= list_max l.
Proof. intros H. assert (F : Forall (fun k => k <= list_max l) l) by now apply list_max_le. rewrite Forall_forall in F. auto. Qed.
Lemma depth_reached n : exists p, control_path n p /\ braces p = depth n.
Proof.
  induction n as [n IH] using strong_ind. rewrite depth_eq.
  destruct (controlled n) as [|a l] eqn:E.
  - exists [n]. split; [constructor|]. unfold braces. cbn. destruct (is_brace n); reflexivity.
  - assert (I : In (list_max (map depth (a :: l))) (map depth (a :: l))) by (apply list_max_in; discriminate).
    apply in_map_iff in I as (m & Em & Hm). rewrite <- E in Hm.
    destruct (controlled_kids _ _ Hm) as (_ & c & Hc & Hcm).
    destruct (IH c m Hc Hcm) as (p & Hp & Hb). exists (n :: p). split; [econstructor; eauto|].
    unfold braces in *. cbn [filter]. rewrite <- Em, <- Hb. destruct (is_brace n); reflexivity.
Qed.
Lemma depth_bound n p : control_path n p -> braces p <= depth n.
Proof.
  induction 1 as [n|n m p Hm Hp IH]; rewrite depth_eq; unfold braces in *; cbn [filter].
  - destruct (is_brace n); simpl; lia.
  - assert (depth m <= list_max (map depth (controlled n))) by (apply list_max_ge, in_map, Hm).
    destruct (is_brace n); simpl; lia.
Qed.
