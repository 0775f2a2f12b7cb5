(** * Proofs: when the rules stay within what C++ defines *)
From Verif Require Import Base BaseFacts ModelResults ModelConfig ModelFilter ModelOptions ModelMain ModelDriver
  ModelSource ModelAST ModelRules ModelRulesBasic ModelRulesConvention ModelRulesNullCheck
  ModelRulesRedundant ModelRulesVars ModelRulesObjC ModelRuleTable ModelProgram
  SpecResults SpecConfig SpecFilter SpecOptions SpecMain SpecAST SpecSource SpecExec SpecRules SpecRulesRedundant SpecRulesVars SpecRulesObjC SpecDriver SpecProgram SpecCatalogue SpecSettings SpecDefined
  ProofConfig ProofFilter ProofOptions ProofMain ProofAST ProofSource ProofRules ProofRulesVars ProofRulesObjC ProofDriver ProofProgram
  PropConfig PropDriver PropAST PropRules PropRuleTable PropProgram PropCatalogue PropSettings.
From Coq Require Import Lia.
Local Arguments lit : simpl never.

(** ** Numbers in settings *)
Lemma stands_total c key default : exists T, stands_for c key default T.
Proof.
  destruct (reads_dec (get_or c key default)) as [[z H]|N]; [exists z|exists 0%Z]; eexists; (split; [now apply in_force_iff|]); auto.
Qed.
Lemma stands_unique c key default T U : stands_for c key default T -> stands_for c key default U -> T = U.
Proof.
  intros (t & Ht & H) (u & Hu & K). apply in_force_iff in Ht. apply in_force_iff in Hu. subst u. subst t.
  destruct H as [H|[N ->]], K as [K|[M ->]]; auto; [eapply reads_as_unique; eauto|destruct (M _ H)|destruct (N _ K)].
Qed.
Lemma stands_atoi c key default T : stands_for c key default T ->
  atoi (get_or c key default) = if in_intb T then Val T else UB.
Proof.
  intros (t & Ht & H). apply in_force_iff in Ht. rewrite <- Ht. destruct H as [H|[N ->]]; [now apply atoi_value|].
  rewrite atoi_no_number by auto. reflexivity.
Qed.
Lemma stands_int c key default d T : atoi default = Val d -> stands_for c key default T ->
  intForKey c key d = if in_intb T then Val (T, c) else UB.
Proof.
  intros A H. apply stands_atoi in H. unfold get_or in H. rewrite intForKey_get. destruct (cfg_get c key); rewrite ?A in H.
  - rewrite H. now destruct (in_intb T).
  - destruct (in_intb T); [|discriminate]. injection H as ->. reflexivity.
Qed.
Lemma is_numeric s key default d : In (key, default) (sh_reads s) -> atoi default = Val d -> d <> 0%Z -> numeric s key default.
Proof.
  intros I A N. split; auto. destruct (reads_dec default) as [H|H]; auto. rewrite atoi_no_number in A by auto.
  exfalso. apply N. congruence.
Qed.
Lemma fit_int c s key default d : settings_fit c s -> In (key, default) (sh_reads s) -> atoi default = Val d -> d <> 0%Z ->
  exists T, stands_for c key default T /\ in_int T /\ intForKey c key d = Val (T, c).
Proof.
  intros F I A N. destruct (stands_total c key default) as [T H]. exists T. split; auto.
  assert (K : in_int T) by (eapply F; eauto; eapply is_numeric; eauto). split; auto.
  rewrite (stands_int c key default d T) by auto. apply in_intb_iff in K. now rewrite K.
Qed.
Lemma unfit_int c key default d T : stands_for c key default T -> ~ in_int T -> atoi default = Val d -> intForKey c key d = UB.
Proof. intros H N A. rewrite (stands_int c key default d T) by auto. destruct (in_intb T) eqn:E; auto. apply in_intb_iff in E. tauto. Qed.
Lemma reads_digit s z : reads_as s z -> existsb isdigit s = true.
Proof.
  intros (ws & sign & ds & rest & -> & _ & N & D & _). destruct ds as [|d ds]; [congruence|]. inversion D; subst.
  rewrite !existsb_app. cbn [existsb]. rewrite H1. now rewrite !orb_true_r.
Qed.

(** ** Visits that can go wrong *)
Lemma outcome_all visit root : (forall n, below root n -> exists r, visit n = Val r) -> exists rs, reports_outcome visit root = Val rs.
Proof.
  intros H. assert (G : forall l, (forall n, In n l -> exists r, visit n = Val r) -> exists rss, Forall2 (fun n r => visit n = Val r) l rss).
  { induction l as [|x l IH]; intros K; [exists []; constructor|]. destruct IH as (rss & F); [intros; apply K; right; auto|].
    destruct (K x (or_introl eq_refl)) as [r E]. exists (r :: rss). constructor; auto. }
  destruct (G (nodes root)) as (rss & F); [intros n Hn; apply H; now apply in_nodes|]. exists (concat rss). apply outcome_nodes. eauto.
Qed.
Definition failure {A} (o : outcome A) : Prop := forall a, o <> Val a.
(** All failures alike: then one of them is the outcome. *)
Lemma outcome_fails visit root bad : failure bad ->
  (forall n, below root n -> (exists r, visit n = Val r) \/ visit n = bad) ->
  (exists n, below root n /\ visit n = bad) -> reports_outcome visit root = bad.
Proof.
  intros B H (m & Hm & Em). unfold reports_outcome. rewrite traverse_nodes, visit_all_true by auto. cbn [snd].
  apply in_nodes in Hm. assert (K : forall n, In n (nodes root) -> (exists r, visit n = Val r) \/ visit n = bad) by (intros n I; apply H; now apply in_nodes).
  clear H. revert Hm K. generalize (@nil report) as acc. generalize (nodes root) as l.
  assert (Q : forall l, fold_left (fun s m => snd (true, obind s (fun l => obind (visit m) (fun r => Val (l ++ r))))) l bad = bad).
  { induction l as [|x l IH]; auto. cbn [fold_left snd]. destruct bad as [a| |]; [destruct (B a eq_refl)|exact IH..]. }
  induction l as [|x l IH]; intros acc I K; [destruct I|]. cbn [fold_left snd obind].
  destruct (K x (or_introl eq_refl)) as [[r E]|E].
  - rewrite E. cbn [obind]. apply IH; [|intros; apply K; right; auto]. destruct I as [->|I]; auto. exfalso. destruct bad; [destruct (B _ eq_refl)|congruence..].
  - rewrite E. rewrite <- (Q l) at 2. f_equal. destruct bad; [destruct (B _ eq_refl)|reflexivity..].
Qed.
Lemma each_all rule roots : (forall d, In d roots -> exists r, rule d = Val r) -> exists rs, each_root rule roots = Val rs.
Proof.
  induction roots as [|r roots IH]; intros H; cbn [each_root]; [eauto|]. destruct (H r (or_introl eq_refl)) as [a E].
  destruct IH as [b F]; [intros; apply H; right; auto|]. rewrite E. cbn [obind]. rewrite F. cbn [obind]. eauto.
Qed.
Lemma each_fails rule roots bad : failure bad -> (forall d, In d roots -> (exists r, rule d = Val r) \/ rule d = bad) ->
  (exists d, In d roots /\ rule d = bad) -> each_root rule roots = bad.
Proof.
  intros B. induction roots as [|r roots IH]; intros H (d & I & E); [destruct I|]. cbn [each_root].
  destruct (H r (or_introl eq_refl)) as [[a F]|F]; rewrite F.
  - cbn [obind]. rewrite IH; [destruct bad; [destruct (B _ eq_refl)|reflexivity..]|intros; apply H; right; auto|].
    destruct I as [->|I]; [|eauto]. exfalso. destruct bad; [destruct (B _ eq_refl)|congruence..].
  - destruct bad; [destruct (B _ eq_refl)|reflexivity..].
Qed.

(** *** Paths *)
Lemma npath_node T n : (forall b, has_body n b -> compound b -> exists v, nPath b = Val v) ->
  ((exists b, has_body n b /\ compound b) -> exists z, T = Val z) -> exists r, NPathComplexity_visit T n = Val r.
Proof.
  intros H HT. unfold NPathComplexity_visit, getBody. destruct (n_shape n) eqn:E; eauto.
  all: match goal with |- context[match ?o with Some _ => _ | None => Val [] end] => destruct o as [b|] eqn:Eb; eauto end.
  all: destruct (n_shape b) eqn:Es; eauto.
  all: assert (Hb : has_body n b) by (subst; unfold has_body; rewrite E; eauto 6).
  all: assert (Cb : compound b) by (unfold compound; eauto).
  all: destruct (H b Hb Cb) as [v V]; destruct HT as [z ->]; [now exists b|]; rewrite V; cbn [obind]; eauto.
Qed.
Definition no_exc {A} (o : outcome A) : Prop := match o with Exc _ => False | _ => True end.
Lemma no_exc_iadd a b : no_exc a -> no_exc b -> no_exc (iadd a b).
Proof. destruct a, b; cbn; auto. intros _ _. unfold to_int. now destruct (in_intb _). Qed.
Lemma no_exc_imul a b : no_exc a -> no_exc b -> no_exc (imul a b).
Proof. destruct a, b; cbn; auto. intros _ _. unfold to_int. now destruct (in_intb _). Qed.
Lemma no_exc_expr n : no_exc (nPath_expr n).
Proof.
  induction n as [n IH] using strong_ind.
  assert (K : forall m, In m (kids n) -> no_exc (nPath_expr m)) by (intros m Hm; apply (IH m m Hm); constructor).
  destruct n as [i t s]. destruct s; cbn [nPath_expr]; try exact I; try (apply K; inkids).
  - destruct op; try exact I; repeat apply no_exc_iadd; try exact I; apply K; inkids.
  - repeat apply no_exc_iadd; try exact I; apply K; inkids.
Qed.
Lemma no_exc_npath n : no_exc (nPath n).
Proof.
  induction n as [n IH] using strong_ind.
  assert (K : forall m, In m (kids n) -> no_exc (nPath m)) by (intros m Hm; apply (IH m m Hm); constructor).
  assert (G : forall l a, (forall x, In x l -> no_exc (nPath x)) -> no_exc a -> no_exc (fold_left imul (map nPath l) a)).
  { induction l as [|x l IHl]; intros a H Ha; cbn [map fold_left]; auto. apply IHl; [intros; apply H; right; auto|]. apply no_exc_imul; auto. apply H. now left. }
  assert (W : forall l a b, (forall x, In x l -> no_exc (nPath x)) -> no_exc a -> no_exc b -> no_exc (switchGroups (map (fun x => (isSwitchCase x, nPath x)) l) a b)).
  { induction l as [|x l IHl]; intros a b H Ha Hb; cbn [map switchGroups]; [now apply no_exc_iadd|].
    assert (Hx : no_exc (nPath x)) by (apply H; now left). assert (Hl : forall y, In y l -> no_exc (nPath y)) by (intros; apply H; now right).
    destruct (isSwitchCase x); apply IHl; auto using no_exc_iadd, no_exc_imul. }
  destruct n as [i t s]. destruct s; cbn [nPath]; try exact I; try (apply K; inkids).
  - apply G; auto. exact I.
  - repeat apply no_exc_iadd; try apply no_exc_expr; [apply K; inkids|]. destruct elseS; [apply K; inkids|exact I].
  - repeat apply no_exc_iadd; try apply no_exc_expr; try exact I; apply K; inkids.
  - repeat apply no_exc_iadd; try apply no_exc_expr; try exact I; apply K; inkids.
  - repeat apply no_exc_iadd; try exact I; [|destruct cond; try exact I; apply no_exc_expr|destruct inc; try exact I; apply no_exc_expr|apply K; inkids].
    destruct init; [apply K; inkids|exact I].
  - repeat apply no_exc_iadd; try exact I. apply K; inkids.
  - assert (Kb : no_exc (nPath body)) by (apply K; inkids).
    destruct body as [j t' sb]. destruct sb; try (apply no_exc_iadd; [apply no_exc_expr|exact Kb]).
    apply W; [|apply no_exc_expr|exact I]. intros x Hx. apply (IH (Node j t' (CompoundStmt body))); [inkids|].
    apply below_child with x; [exact Hx|constructor].
Qed.
(** The count is undefined exactly if some number on the way is too large. *)
Lemma to_int_ub z : (0 <= z)%Z -> to_int z = UB -> (INT_MAX < z)%Z.
Proof. intros H. rewrite to_int_iff by auto. destruct (Z.leb_spec z INT_MAX); [discriminate|auto]. Qed.
Lemma to_int_fits z v : (0 <= z)%Z -> to_int z = Val v -> (z <= INT_MAX)%Z.
Proof. intros H. rewrite to_int_iff by auto. destruct (Z.leb_spec z INT_MAX); [auto|discriminate]. Qed.
Lemma val_is n v : nPath n = Val v -> nPath n = Val (npZ n).
Proof. intros H. rewrite H. f_equal. now apply nPath_val. Qed.
Lemma paths_all l : Forall2 paths l (map npZ l).
Proof. apply forall2_map_intro. intros. apply paths_intro. Qed.
Lemma product_nonneg l : (0 <= product (map npZ l))%Z.
Proof. apply product_ge0. intros x Hx. apply in_map_iff in Hx as (m & <- & _). apply npZ_nonneg. Qed.
Lemma imul_strict l : forall w, (forall v, w <> Val v) -> fold_left imul l w = w.
Proof. induction l as [|x l IH]; intros w H; cbn [fold_left]; auto. destruct w; [destruct (H a eq_refl)|..]; apply IH; discriminate. Qed.
Lemma fold_imul_ub l : forall a, (forall x, In x l -> nPath x = Val (npZ x)) -> (0 <= a)%Z ->
  fold_left imul (map nPath l) (Val a) = UB -> exists l1 l2, l = l1 ++ l2 /\ (INT_MAX < a * product (map npZ l1))%Z.
Proof.
  induction l as [|x l IH]; intros a H Ha E; cbn [map fold_left] in E; [discriminate|].
  rewrite (H x (or_introl eq_refl)) in E. cbn [imul obind] in E. pose proof (npZ_nonneg x).
  destruct (to_int (a * npZ x)) as [y|w|] eqn:T.
  - apply to_int_val in T. subst y. apply IH in E as (l1 & l2 & -> & B); [|intros; apply H; now right|nia].
    exists (x :: l1), l2. split; auto. unfold product in *. cbn [map fold_right]. lia.
  - unfold to_int in T. destruct (in_intb _); discriminate.
  - apply to_int_ub in T; [|nia]. exists [x], l. split; auto. unfold product. cbn [map fold_right]. lia.
Qed.
Lemma fold_imul_prefix l1 l2 a v : fold_left imul (map nPath (l1 ++ l2)) (Val a) = Val v -> (0 <= a)%Z -> (a <= INT_MAX)%Z ->
  (forall x, In x l1 -> nPath x = Val (npZ x)) /\ (a * product (map npZ l1) <= INT_MAX)%Z
  /\ fold_left imul (map nPath l2) (Val (a * product (map npZ l1))%Z) = Val v.
Proof.
  revert a. induction l1 as [|x l1 IH]; intros a E Ha B; cbn [app map fold_left] in *.
  - unfold product. cbn [fold_right]. rewrite Z.mul_1_r. split; [intros ? []|]. auto.
  - destruct (nPath x) as [y|w|] eqn:Nx; cbn [imul obind] in E.
    2,3: rewrite imul_strict in E by discriminate; discriminate E.
    pose proof (nPath_val _ _ Nx) as ->. pose proof (npZ_nonneg x).
    destruct (to_int (a * npZ x)) as [z|w|] eqn:T.
    2,3: rewrite imul_strict in E by discriminate; discriminate E.
    assert (Nn : (0 <= a * npZ x)%Z) by nia. pose proof (to_int_fits _ _ Nn T). apply to_int_val in T. subst z.
    apply IH in E as (I1 & I2 & I3); [|nia|lia].
    replace (a * product (npZ x :: map npZ l1))%Z with (a * npZ x * product (map npZ l1))%Z by (unfold product; cbn [map fold_right]; ring).
    split; [intros y [<-|Hy]; auto|auto].
Qed.
Lemma groupsZ_ge l : forall total internal, (0 <= internal)%Z -> (total <= groupsZ (map (fun x => (ModelAST.isSwitchCase x, npZ x)) l) total internal)%Z.
Proof.
  induction l as [|x l IH]; intros total internal H; cbn [map groupsZ]; [lia|]. pose proof (npZ_nonneg x). destruct (ModelAST.isSwitchCase x).
  - specialize (IH (total + internal)%Z (npZ x) ltac:(lia)). lia.
  - apply IH. nia.
Qed.
Lemma switchGroups_ub l : forall total internal, (forall x, In x l -> nPath x = Val (npZ x)) -> (0 <= total)%Z -> (0 <= internal)%Z ->
  switchGroups (map (fun x => (ModelAST.isSwitchCase x, nPath x)) l) (Val total) (Val internal) = UB ->
  (INT_MAX < groupsZ (map (fun x => (ModelAST.isSwitchCase x, npZ x)) l) total internal)%Z
  \/ (exists a b, l = a ++ b /\ (forall x, In x a -> ~ case_label x) /\ (INT_MAX < internal * product (map npZ a))%Z)
  \/ exists before c rest after, l = before ++ (c :: rest) ++ after /\ case_label c /\ (forall x, In x rest -> ~ case_label x)
      /\ (INT_MAX < product (map npZ (c :: rest)))%Z.
Proof.
  assert (R : forall z w, to_int z <> Exc w) by (intros; unfold to_int; destruct (in_intb z); discriminate).
  induction l as [|x l IH]; intros total internal H Ht Hi E; cbn [map switchGroups groupsZ] in *.
  - left. cbn [iadd obind] in E. apply to_int_ub in E; lia.
  - rewrite (H x (or_introl eq_refl)) in E. pose proof (npZ_nonneg x) as Hx.
    assert (Hl : forall y, In y l -> nPath y = Val (npZ y)) by (intros; apply H; now right).
    destruct (ModelAST.isSwitchCase x) eqn:Cx; cbn [iadd imul obind] in E.
    + destruct (to_int (total + internal)) as [y|w|] eqn:T; [|destruct (R _ _ T)|].
      * apply to_int_val in T. subst y. apply IH in E as [E|[(a & b & -> & Na & P)|(before & c & rest & after & -> & C & Na & P)]]; auto; try lia.
        -- right. right. exists [], x, a, b. split; auto. split; [now apply isSwitchCase_iff|]. split; auto.
        -- right. right. exists (x :: before), c, rest, after. auto.
      * left. apply to_int_ub in T; [|lia]. pose proof (groupsZ_ge l (total + internal)%Z (npZ x) Hx). lia.
    + assert (Nx : ~ case_label x) by (intros C; apply isSwitchCase_iff in C; congruence).
      destruct (to_int (internal * npZ x)) as [y|w|] eqn:T; [|destruct (R _ _ T)|].
      * apply to_int_val in T. subst y. apply IH in E as [E|[(a & b & -> & Na & P)|(before & c & rest & after & -> & C & Na & P)]]; auto; try nia.
        -- right. left. exists (x :: a), b. split; auto. split; [intros y [<-|Hy]; auto|]. unfold product in *. cbn [map fold_right]. lia.
        -- right. right. exists (x :: before), c, rest, after. auto.
      * apply to_int_ub in T; [|nia]. right. left. exists [x], l. split; auto. split; [intros y [<-|[]]; auto|]. unfold product. cbn [map fold_right]. lia.
Qed.
Lemma switchGroups_all l : forall total internal v, switchGroups (map (fun x => (ModelAST.isSwitchCase x, nPath x)) l) total internal = Val v ->
  (exists t i, total = Val t /\ internal = Val i) /\ forall x, In x l -> nPath x = Val (npZ x).
Proof.
  induction l as [|x l IH]; intros total internal v E; cbn [map switchGroups] in E.
  - apply iadd_val in E as (a & b & -> & -> & _). split; eauto. intros ? [].
  - destruct (ModelAST.isSwitchCase x); apply IH in E as ((t & i & T & I) & A).
    + apply iadd_val in T as (a & b & -> & -> & _). split; eauto. intros y [<-|Hy]; auto. eapply val_is; eauto.
    + apply imul_val in I as (a & b & -> & N & _). split; eauto. intros y [<-|Hy]; auto. eapply val_is; eauto.
Qed.
Lemma switchGroups_skip a l total internal v : switchGroups (map (fun x => (ModelAST.isSwitchCase x, nPath x)) (a ++ l)) total internal = Val v ->
  exists t i, switchGroups (map (fun x => (ModelAST.isSwitchCase x, nPath x)) l) t i = Val v.
Proof.
  revert total internal. induction a as [|x a IH]; intros total internal E; cbn [app map switchGroups] in E; eauto.
  destruct (ModelAST.isSwitchCase x); eauto.
Qed.
Lemma switchGroups_seg rest after : forall total internal v, (forall x, In x rest -> ~ case_label x) -> (0 <= internal)%Z -> (internal <= INT_MAX)%Z ->
  switchGroups (map (fun x => (ModelAST.isSwitchCase x, nPath x)) (rest ++ after)) total (Val internal) = Val v ->
  (internal * product (map npZ rest) <= INT_MAX)%Z.
Proof.
  induction rest as [|x rest IH]; intros total internal v N Hi B E; cbn [app map switchGroups] in E.
  - unfold product. cbn [map fold_right]. lia.
  - assert (F : ModelAST.isSwitchCase x = false).
    { destruct (ModelAST.isSwitchCase x) eqn:C; auto. destruct (N x (or_introl eq_refl)). now apply isSwitchCase_iff. }
    rewrite F in E. destruct (switchGroups_all _ _ _ _ E) as ((t & i & _ & I) & _). pose proof (npZ_nonneg x).
    apply imul_val in I as I'. destruct I' as (p & q & P & Q & Ei). injection P as <-. apply nPath_val in Q as Q'. subst q.
    rewrite Q in I. cbn [imul obind] in I. assert (Nn : (0 <= internal * npZ x)%Z) by nia. pose proof (to_int_fits _ _ Nn I). rewrite Q in E. cbn [imul obind] in E. rewrite I in E. subst i.
    apply IH in E; [|intros; apply N; now right|nia|lia]. unfold product in *. cbn [map fold_right]. lia.
Qed.

Lemma counted_val n v : nPath n = Val v -> forall m, In m (entering n) -> nPath m = Val (npZ m).
Proof.
  destruct n as [i t s]. destruct s; cbn [nPath entering n_shape]; intros E m Hm; try (destruct Hm; fail).
  - rewrite <- (app_nil_r body) in E. apply fold_imul_prefix in E; [|lia|unfold INT_MAX; lia]. apply E. exact Hm.
  - apply iadd_val in E as (a & b & E & Eb & _). apply iadd_val in E as (c & d & Ec & Ed & _).
    destruct Hm as [<-|Hm]; [eapply val_is; eauto|]. destruct elseS; cbn [opt] in Hm; [|destruct Hm]. destruct Hm as [<-|[]]. eapply val_is; eauto.
  - apply iadd_val in E as (a & b & E & Eb & _). apply iadd_val in E as (c & d & Ec & Ed & _). destruct Hm as [<-|[]]. eapply val_is; eauto.
  - apply iadd_val in E as (a & b & E & Eb & _). apply iadd_val in E as (c & d & Ec & Ed & _). destruct Hm as [<-|[]]. eapply val_is; eauto.
  - apply iadd_val in E as (a & b & E & Eb & _). apply iadd_val in E as (c & d & E & Ed & _). apply iadd_val in E as (e & f & E & Ef & _).
    apply iadd_val in E as (g & h & Eg & Eh & _). destruct init; cbn [opt app] in Hm.
    + destruct Hm as [<-|[<-|[]]]; eapply val_is; eauto.
    + destruct Hm as [<-|[]]; eapply val_is; eauto.
  - apply iadd_val in E as (a & b & E & Eb & _). destruct Hm as [<-|[]]. eapply val_is; eauto.
  - destruct body as [j t' sb]. cbn [n_shape] in Hm.
    destruct sb; try (apply iadd_val in E as (a & b & E & Eb & _); destruct Hm as [<-|[]]; eapply val_is; eauto; fail).
    apply switchGroups_all in E as [_ A]. auto.
  - destruct Hm as [<-|[]]. eapply val_is; eauto.
  - destruct Hm as [<-|[]]. eapply val_is; eauto.
Qed.
Lemma nPath_range n v : nPath n = Val v -> (0 <= v <= INT_MAX)%Z.
Proof.
  assert (S : forall a b w, a +! b = Val w -> (0 <= w)%Z -> (w <= INT_MAX)%Z).
  { intros a b w E H. destruct a as [x| |], b as [y| |]; cbn [iadd obind] in E; try discriminate E.
    pose proof (to_int_val _ _ E) as ->. eapply to_int_fits; eauto. }
  revert v. induction n as [n IH] using strong_ind. intros v E. assert (N : (0 <= v)%Z) by (rewrite (nPath_val _ _ E); apply npZ_nonneg).
  split; auto.
  assert (K : forall m, In m (kids n) -> forall v, nPath m = Val v -> (v <= INT_MAX)%Z).
  { intros m Hm w Ew. apply (IH m m Hm (below_self m) w Ew). }
  destruct n as [i t s]. destruct s; cbn [nPath] in E; try (injection E as <-; unfold INT_MAX; lia); try (eapply S; eauto; fail).
  - rewrite <- (app_nil_r body) in E. pose proof (fold_imul_prefix _ _ _ _ E ltac:(lia) ltac:(unfold INT_MAX; lia)) as (_ & B & F).
    cbn [map fold_left] in F. injection F as <-. exact B.
  - destruct body as [j t' sb]. destruct sb; try (eapply S; eauto; fail).
    assert (G : forall l a b w, switchGroups l a b = Val w -> (0 <= w)%Z -> (w <= INT_MAX)%Z).
    { induction l as [|[[] y] l IHl]; intros a b w E' H; cbn [switchGroups] in E'; eauto. }
    eapply G; eauto.
  - eapply K; eauto. inkids.
  - eapply K; eauto. inkids.
Qed.
Lemma uncountable_ub n : uncountable n -> nPath n = UB.
Proof.
  intros U. assert (X : forall v, nPath n <> Val v).
  { induction U as [n w P B|n l vs Sg P B|n m Hm U IH]; intros v E.
    - apply paths_npZ in P. subst w. pose proof (nPath_range _ _ E). rewrite <- (nPath_val _ _ E) in B. lia.
    - assert (Ev : vs = map npZ l) by (eapply forall2_map; [|exact P]; intros; now apply paths_npZ). subst vs.
      destruct n as [i t s]. destruct Sg as [(after & H)|(pre & c & b & cov & before & label & rest & after & H & Hb & -> & C & Nr)]; cbn [n_shape] in H; subst s.
      + cbn [nPath] in E. pose proof (fold_imul_prefix _ _ _ _ E ltac:(lia) ltac:(unfold INT_MAX; lia)). lia.
      + destruct b as [j t' sb]. cbn [n_shape] in Hb. subst sb. cbn [nPath] in E. apply switchGroups_skip in E as (tt & ii & E).
        cbn [app map switchGroups] in E. apply isSwitchCase_iff in C. rewrite C in E.
        destruct (switchGroups_all _ _ _ _ E) as ((_ & q & _ & Q) & _). rewrite Q in E.
        pose proof (nPath_range _ _ Q). apply switchGroups_seg in E; auto; try lia.
        pose proof (nPath_val _ _ Q). subst q. unfold product in *. cbn [map fold_right] in B. lia.
    - apply (IH (npZ m)). eapply counted_val; eauto. }
  pose proof (no_exc_npath n). destruct (nPath n) as [v| |]; [destruct (X v eq_refl)|contradiction|reflexivity].
Qed.
Lemma un_sum n : (INT_MAX < npZ n)%Z -> uncountable n.
Proof. intros B. exact (un_self n _ (paths_intro n) B). Qed.
Lemma ub_uncountable n : nPath n = UB -> uncountable n.
Proof.
  induction n as [n IH] using strong_ind. intros E.
  assert (K : forall m, In m (entering n) -> (exists c, In c (kids n) /\ below c m) -> nPath m = Val (npZ m) \/ uncountable n).
  { intros m Hm (c & Hc & Hb). pose proof (no_exc_npath m) as N. destruct (nPath m) as [v| |] eqn:V; [left; f_equal; now apply nPath_val|contradiction|].
    right. eapply un_inside; eauto. }
  assert (KA : forall l, (forall m, In m l -> In m (entering n) /\ exists c, In c (kids n) /\ below c m) ->
    (forall m, In m l -> nPath m = Val (npZ m)) \/ uncountable n).
  { induction l as [|m l IHl]; intros H; [left; intros ? []|]. destruct (H m (or_introl eq_refl)) as [A B].
    destruct (K m A B) as [V|U]; auto. destruct IHl as [A'|U]; [intros; apply H; now right| |auto]. left. intros m' [<-|I]; auto. }
  assert (KK : forall m, In m (entering n) -> In m (kids n) -> nPath m = Val (npZ m) \/ uncountable n).
  { intros m Hm Hk. apply K; auto. exists m. split; auto. constructor. }
  assert (KT : forall m, In m (entering n) -> In m (kids n) -> nPath m = to_int (npZ m) \/ uncountable n).
  { intros m Hm Hk. destruct (KK m Hm Hk) as [V|U]; auto. left. rewrite V. pose proof (nPath_range _ _ V) as [R1 R2].
    rewrite to_int_iff by auto. now rewrite (proj2 (Z.leb_le _ _)). }
  assert (Q : forall z, (0 <= z)%Z -> z = npZ n -> nPath n = to_int z -> uncountable n).
  { intros z Z0 Ez Et. rewrite E in Et. symmetry in Et. apply to_int_ub in Et; auto. subst z. now apply un_sum. }
  destruct n as [i t s]. destruct s; cbn [nPath] in E, Q; try discriminate E.
  - destruct (KA body) as [A|U]; auto. { intros m Hm. split; auto. exists m. split; [exact Hm|constructor]. }
    apply fold_imul_ub in E as (l1 & l2 & -> & B); auto; [|lia].
    eapply un_segment; [left; eexists; reflexivity|apply paths_all|lia].
  - destruct (KT thenS) as [A|U]; auto; [now left|inkids|]. pose proof (exZ_nonneg cond). pose proof (npZ_nonneg thenS).
    destruct elseS as [e|].
    + destruct (KT e) as [B|U]; auto; [right; now left|inkids|]. pose proof (npZ_nonneg e).
      apply (Q (exZ cond + npZ thenS + npZ e)%Z); [lia|reflexivity|]. rewrite nPath_expr_exact, A, B. now rewrite !iadd_to_int by lia.
    + apply (Q (exZ cond + npZ thenS + 1)%Z); [lia|reflexivity|]. rewrite nPath_expr_exact, A. change (Val 1%Z) with (to_int 1). now rewrite !iadd_to_int by lia.
  - destruct (KT body) as [A|U]; auto; [now left|inkids|]. pose proof (exZ_nonneg cond). pose proof (npZ_nonneg body).
    apply (Q (exZ cond + npZ body + 1)%Z); [lia|reflexivity|]. rewrite nPath_expr_exact, A. change (Val 1%Z) with (to_int 1). now rewrite !iadd_to_int by lia.
  - destruct (KT body) as [A|U]; auto; [now left|inkids|]. pose proof (exZ_nonneg cond). pose proof (npZ_nonneg body).
    apply (Q (exZ cond + npZ body + 1)%Z); [lia|reflexivity|]. rewrite nPath_expr_exact, A. change (Val 1%Z) with (to_int 1). now rewrite !iadd_to_int by lia.
  - destruct (KT body) as [A|U]; auto; [apply in_or_app; right; now left|inkids|].
    pose proof (oexZ_nonneg cond). pose proof (oexZ_nonneg inc). pose proof (npZ_nonneg body).
    destruct init as [e|].
    + destruct (KT e) as [B|U]; auto; [now left|inkids|]. pose proof (npZ_nonneg e).
      apply (Q (npZ e + oexZ cond + oexZ inc + npZ body + 1)%Z); [lia|reflexivity|]. rewrite !oexpr_exact, A, B. change (Val 1%Z) with (to_int 1). now rewrite !iadd_to_int by lia.
    + apply (Q (1 + oexZ cond + oexZ inc + npZ body + 1)%Z); [lia|reflexivity|]. rewrite !oexpr_exact, A. change (Val 1%Z) with (to_int 1). now rewrite !iadd_to_int by lia.
  - destruct (KT body) as [A|U]; auto; [now left|inkids|]. pose proof (npZ_nonneg body).
    apply (Q (npZ body + 2)%Z); [lia|reflexivity|]. rewrite A. change (Val 2%Z) with (to_int 2). now rewrite !iadd_to_int by lia.
  - pose proof (exZ_nonneg cond) as Hc. destruct body as [j t' sb].
    assert (U : (forall l, sb <> CompoundStmt l) -> nPath_expr cond +! nPath (Node j t' sb) = UB ->
      uncountable (Node i t (SwitchStmt pre cond (Node j t' sb) allEnumCasesCovered))).
    { intros NC E'. destruct (KT (Node j t' sb)) as [A|U]; auto; [destruct sb; try (now left); destruct (NC _ eq_refl)|inkids|].
      pose proof (npZ_nonneg (Node j t' sb)). rewrite nPath_expr_exact, A, iadd_to_int in E' by lia. apply to_int_ub in E'; [|lia].
      apply un_sum. destruct sb; try exact E'. destruct (NC _ eq_refl). }
    destruct sb; try (apply U; [discriminate|exact E]). clear U.
    destruct (KA body) as [A|U]; auto.
    { intros m Hm. split; auto. exists (Node j t' (CompoundStmt body)). split; [inkids|]. apply below_child with m; [exact Hm|constructor]. }
    rewrite nPath_expr_exact in E. destruct (to_int (exZ cond)) as [k|w|] eqn:T.
    + apply to_int_val in T. subst k. apply switchGroups_ub in E as [B|[(a & b & _ & _ & B)|(before & c & rest & after & -> & C & N & B)]]; auto; try lia.
      * now apply un_sum.
      * unfold INT_MAX in B. lia.
      * eapply un_segment; [right|apply paths_all|exact B]. do 8 eexists. repeat split; eauto.
    + unfold to_int in T. destruct (in_intb _); discriminate.
    + apply to_int_ub in T; auto. apply un_sum. cbn [npZ].
      pose proof (groupsZ_ge body (exZ cond) 0%Z ltac:(lia)). lia.
  - destruct (KK sub) as [A|U]; auto; [now left|inkids|]. rewrite A in E. discriminate E.
  - destruct (KK sub) as [A|U]; auto; [now left|inkids|]. rewrite A in E. discriminate E.
Qed.
Lemma npath_node_cases T n : no_exc T -> (exists r, NPathComplexity_visit T n = Val r) \/ NPathComplexity_visit T n = UB.
Proof.
  intros NT. unfold NPathComplexity_visit. destruct (n_shape n); eauto.
  all: destruct (getBody n) as [b|]; eauto; destruct (n_shape b); eauto; pose proof (no_exc_npath b) as N.
  all: destruct (nPath b); [cbn [obind]; destruct T; [cbn [obind]; eauto|destruct NT|auto]|destruct N|auto].
Qed.
Lemma npath_node_unread n b : has_body n b -> compound b -> NPathComplexity_visit UB n = UB.
Proof.
  intros H (i & K). pose proof (no_exc_npath b) as N. unfold NPathComplexity_visit, getBody.
  destruct H as [(f & ps & E)|(m & ps & E)]; rewrite E, K; destruct (nPath b); try reflexivity; destruct N.
Qed.
Lemma npath_node_fails T n b : has_body n b -> compound b -> nPath b = UB -> NPathComplexity_visit T n = UB.
Proof.
  intros H (i & K) U. unfold NPathComplexity_visit, getBody. destruct H as [(f & ps & E)|(m & ps & E)]; rewrite E, K, U; reflexivity.
Qed.

(** *** Names *)
Lemma shortened_cases name T : ((3 <= size name)%Z -> exists s, shortened name T = Val s)
  /\ ((size name < 3)%Z -> shortened name T = Exc $"basic_string::substr").
Proof.
  unfold shortened, substr_at, size.
  replace ((0 <? 0)%Z || (Z.of_nat (length name) <? 0)%Z) with false
    by (symmetry; apply orb_false_iff; split; [reflexivity|apply Z.ltb_ge; lia]). cbn [obind]. split; intros L.
  - replace ((Z.of_nat (length name) - 3 <? 0)%Z || (Z.of_nat (length name) <? Z.of_nat (length name) - 3)%Z) with false
      by (symmetry; apply orb_false_iff; split; apply Z.ltb_ge; lia). cbn [obind]. eauto.
  - replace (Z.of_nat (length name) - 3 <? 0)%Z with true by (symmetry; apply Z.ltb_lt; lia). reflexivity.
Qed.
Lemma long_node_ok T n : (INT_MIN <= T)%Z -> (forall name, variable_named n name -> displayable T name) -> exists r, LongVariableName_visit T n = Val r.
Proof.
  intros HT H. unfold LongVariableName_visit. destruct (n_shape n) eqn:E; eauto. rename info into v.
  assert (V : variable_named n (v_name v)) by (do 2 eexists; eauto). apply H in V. fold (size (v_name v)).
  destruct (size (v_name v) >? T)%Z eqn:G; eauto. apply Z.gtb_lt in G. destruct V as [V|[V W]]; [lia|].
  replace (in_intb (T + 10)) with true by (symmetry; apply in_intb_iff; unfold in_int; lia). cbn [negb].
  destruct (size (v_name v) >? T + 10)%Z eqn:G'; [|cbn [obind]; eauto]. apply Z.gtb_lt in G'.
  destruct (shortened_cases (v_name v) T) as [S _]. destruct S as [sh S]; [lia|]. rewrite S. cbn [obind]. eauto.
Qed.
Lemma long_node_throws T n name : (INT_MIN <= T <= INT_MAX - 10)%Z -> variable_named n name -> (T + 10 < size name < 3)%Z ->
  LongVariableName_visit T n = Exc $"basic_string::substr".
Proof.
  intros HT (v & i & E & <-) L. unfold LongVariableName_visit. rewrite E. fold (size (v_name v)).
  replace (size (v_name v) >? T)%Z with true by (symmetry; apply Z.gtb_lt; lia).
  replace (in_intb (T + 10)) with true by (symmetry; apply in_intb_iff; unfold in_int; lia). cbn [negb].
  replace (size (v_name v) >? T + 10)%Z with true by (symmetry; apply Z.gtb_lt; lia).
  destruct (shortened_cases (v_name v) T) as [_ S]. rewrite S by lia. reflexivity.
Qed.
Lemma long_node_overflows T n name : (INT_MAX - 10 < T)%Z -> variable_named n name -> (T < size name)%Z ->
  LongVariableName_visit T n = UB.
Proof.
  intros HT (v & i & E & <-) L. unfold LongVariableName_visit. rewrite E. fold (size (v_name v)).
  replace (size (v_name v) >? T)%Z with true by (symmetry; apply Z.gtb_lt; lia).
  replace (in_intb (T + 10)) with false; [reflexivity|]. symmetry. destruct (in_intb (T + 10)) eqn:I; auto.
  apply in_intb_iff in I. unfold in_int in I. lia.
Qed.
Lemma long_node_cases T n : in_int T -> (exists r, LongVariableName_visit T n = Val r)
  \/ ((T <= INT_MAX - 10)%Z /\ LongVariableName_visit T n = Exc $"basic_string::substr") \/ ((INT_MAX - 10 < T)%Z /\ LongVariableName_visit T n = UB).
Proof.
  intros HT. unfold in_int in HT.
  destruct (n_shape n) eqn:E; try (left; unfold LongVariableName_visit; rewrite E; now eauto). rename info into v.
  assert (V : variable_named n (v_name v)) by (do 2 eexists; eauto).
  assert (U : forall name, variable_named n name -> name = v_name v) by (intros name (v' & i' & X & <-); congruence).
  destruct (Z_le_gt_dec (size (v_name v)) T) as [L|L].
  { left. apply long_node_ok; [lia|]. intros name Hn. apply U in Hn. subst. left. lia. }
  destruct (Z_le_gt_dec T (INT_MAX - 10)) as [B|B]; [|right; right; split; [lia|]; apply (long_node_overflows T n (v_name v)); [lia|exact V|lia]].
  destruct (Z_le_gt_dec (size (v_name v)) (T + 10)) as [S|S]; [|destruct (Z_le_gt_dec 3 (size (v_name v))) as [S'|S']].
  - left. apply long_node_ok; [lia|]. intros name Hn. apply U in Hn. subst. right. lia.
  - left. apply long_node_ok; [lia|]. intros name Hn. apply U in Hn. subst. right. lia.
  - right; left. split; [lia|]. apply (long_node_throws T n (v_name v)); [lia|exact V|lia].
Qed.

(** ** The rules, one by one *)
(** Reading the limit at a node and comparing it there are the same. *)
Lemma method_iff n : isMethod n = true <-> function_or_method n.
Proof.
  unfold isMethod, function_or_method. split.
  - destruct (n_shape n) eqn:E; try discriminate; intros _; eauto 6.
  - intros [(f & ps & b & E)|(m & ps & b & E)]; rewrite E; reflexivity.
Qed.
Lemma block_iff n : isBlock n = true <-> compound n.
Proof. unfold isBlock, compound. split; [destruct (n_shape n) eqn:E; try discriminate; eauto|intros (l & ->); reflexivity]. Qed.
Lemma switch_iff n : isSwitchStmt n = true <-> is_switch n.
Proof. unfold isSwitchStmt, is_switch. split; [destruct (n_shape n) eqn:E; try discriminate; intros _; eauto 6|intros (p & c & b & x & ->); reflexivity]. Qed.
Lemma variable_iff n : isVarDecl n = true <-> a_variable n.
Proof.
  unfold isVarDecl, a_variable, variable_named. split; [destruct (n_shape n) eqn:E; try discriminate; intros _; eauto 6|intros (name & v & i & -> & _); reflexivity].
Qed.
Lemma candidate_iff n : isLongMethodCandidate n = true <-> (exists b, has_body n b)
  /\ forall fi ps b m, n_shape n = FunctionDecl fi ps b -> f_method fi = Some m -> cm_inRecord m = false.
Proof.
  unfold isLongMethodCandidate, isMethod, getBody, isCppMethodDeclLocatedInCppRecordDecl, has_body. split.
  - destruct (n_shape n) as [] eqn:E; try discriminate; (destruct body as [b|]; [|discriminate]); cbn [andb].
    + destruct info as [fn fm fd fl]. intros H. split; [eauto 6|]. intros fi ps b' m [= <- <- <-] M. cbn [f_method] in M. subst fm. cbn in H. now apply negb_true_iff in H.
    + intros _. split; [eauto 6|]. intros. discriminate.
  - intros ((b & [(f & ps & E)|(m & ps & E)]) & H); rewrite E; cbn [andb]; auto.
    destruct f as [fn [m|] fd fl]; auto. rewrite (H _ _ _ m E eq_refl). reflexivity.
Qed.
Ltac by_name H := cbn [In reads_early sh_name] in H; exfalso; repeat match type of H with
  | _ \/ _ => destruct H as [H|H] | False => destruct H | _ => vm_compute in H; discriminate H end.
Lemma compares_looks s x decls d n : In d decls -> below d n -> compares (sh_name s) n -> looks s x decls.
Proof. intros. right; right. eauto. Qed.

Definition row_fine (p : shipped * behaviour) : Prop :=
  let '(s, b) := p in
  match b with
  | BChecked rule => forall c x decls, unproblematic c s x decls -> forall d, In d decls -> exists rs, rule c x d = Val rs
  | BSetUp rule => forall c x decls, unproblematic c s x decls ->
      prepared (cx_lang x) (sh_supportedLanguages s) (sh_supportedCUDA s) -> exists rs, rule c x decls = Val rs
  | BStack => forall c x decls, unproblematic c s x decls -> forall stack, exists r, ShortVariableName_run c stack decls = Val r
  | BLines => forall c x decls, unproblematic c s x decls -> u_content (main_unit x) <> [] -> exists T, intForKey c $"LONG_LINE" 100 = Val (T, c)
  | _ => True
  end.
Lemma limit_fine s c key default d reads visit x decls : unproblematic c s x decls -> In (key, default) (sh_reads s) -> atoi default = Val d -> d <> 0%Z ->
  (forall n, reads n = true -> compares (sh_name s) n) ->
  forall r : node, In r decls -> exists rs, with_limit c key d reads visit r = Val rs.
Proof.
  intros (F & _) I A N R r Hr. unfold with_limit. apply outcome_all. intros n Hn. destruct (reads n) eqn:E; [|eauto].
  destruct (fit_int c s key default d) as (T & _ & _ & ->); auto; [|cbn [obind]; eauto].
  apply F. eapply compares_looks; eauto.
Qed.
Lemma setUp_fine s c key default d visit x decls roots : unproblematic c s x decls -> In (key, default) (sh_reads s) -> atoi default = Val d -> d <> 0%Z ->
  In (sh_name s) reads_early -> prepared (cx_lang x) (sh_supportedLanguages s) (sh_supportedCUDA s) ->
  exists rs, with_setUp c key d visit roots = Val rs.
Proof.
  intros (F & _) I A N E P. destruct (fit_int c s key default d) as (T & _ & _ & X); auto; [apply F; left; auto|].
  unfold with_setUp. rewrite X. cbn [obind]. eauto.
Qed.
Ltac compare_at := let n := fresh in let H := fresh in intros n H; unfold compares; cbn [sh_name];
  first [left; split; [cbn; tauto|now apply method_iff]
        |right; right; left; split; [reflexivity|now apply block_iff]
        |right; right; right; left; split; [reflexivity|now apply candidate_iff]
        |right; right; right; right; left; split; [reflexivity|now apply switch_iff]].
Lemma rows_fine : Forall row_fine shipped_behaviours.
Proof.
  unfold shipped_behaviours. repeat match goal with |- Forall _ (_ :: _) => apply Forall_cons | |- Forall _ [] => apply Forall_nil end; cbn [row_fine]; try exact I.
  all: try (intros c x decls H d Hd; unfold CyclomaticComplexityRule, NcssMethodCountRule, NestedBlockDepthRule, LongMethodRule, TooFewBranchesRule;
    match goal with |- exists rs, with_limit _ _ _ _ _ _ = Val rs =>
      eapply limit_fine; [exact H|left; reflexivity|vm_compute; reflexivity|discriminate|compare_at|exact Hd] end).
  all: try (intros c x decls H P; unfold LongClassRule, TooManyFieldsRule, TooManyMethodsRule, TooManyParametersRule, PreferEarlyExitRule;
    match goal with |- exists rs, with_setUp _ _ _ _ _ = Val rs =>
      eapply setUp_fine; [exact H|left; reflexivity|vm_compute; reflexivity|discriminate|cbn; tauto|exact P] end).
  - intros c x decls (_ & _ & _ & H) d Hd. apply outcome_all. intros n Hn.
    destruct (protected_node n) as [[_ (rs & E & _)]|[C _]]; [eauto|]. destruct (H eq_refl). exists d, n. auto.
  - intros c x decls (F & _ & H & _) d Hd. unfold LongVariableNameRule. apply outcome_all. intros n Hn.
    destruct (isVarDecl n) eqn:V; [|eauto]. apply variable_iff in V.
    destruct (fit_int c sh_LongVariableName $"LONG_VARIABLE_NAME" $"20" 20) as (T & S & B & E);
      [apply F; eapply compares_looks; eauto; do 5 right; split; [cbn; tauto|auto]|left; reflexivity|vm_compute; reflexivity|discriminate|].
    rewrite E. cbn [obind fst]. unfold in_int in B. apply long_node_ok; [lia|].
    intros name Hv. apply (H eq_refl T name S). exists d, n. auto.
  - intros c x decls (F & _) stack. rewrite short_cases.
    destruct (existsb isVarDecl (all_nodes decls)) eqn:V; [|destruct (intForKey _ _ _) as [[T c']| |]; eauto].
    destruct (fit_int c sh_ShortVariableName $"SHORT_VARIABLE_NAME" $"3" 3) as (T & S & B & ->); [|left; reflexivity|vm_compute; reflexivity|discriminate|eauto].
    apply existsb_exists in V as (n & I & V). apply variable_iff in V. unfold all_nodes in I. apply in_flat_map in I as (d & Hd & Hn).
    apply F. apply (compares_looks _ x decls d n Hd); [now apply in_nodes|]. do 5 right. split; [cbn; tauto|auto].
  - intros c x decls (F & _) Nn.
    destruct (fit_int c sh_LongLine $"LONG_LINE" $"100" 100) as (T & S & B & ->); [|left; reflexivity|vm_compute; reflexivity|discriminate|eauto].
    apply F. right; left. split; [reflexivity|auto].
  - intros c x decls (F & H & _) d Hd. unfold NPathComplexityRule.
    apply outcome_all. intros n Hn. apply npath_node.
    + intros b Hb Cb. assert (Y : ~ uncountable b) by (apply (H eq_refl b); exists d, n; auto).
      pose proof (no_exc_npath b) as N. destruct (nPath b) as [v| |] eqn:V; [eauto|contradiction|destruct (Y (ub_uncountable b V))].
    + intros C. destruct (fit_int c sh_NPathComplexity $"NPATH_COMPLEXITY" $"200" 200) as (T & S & B & ->);
        [|left; reflexivity|vm_compute; reflexivity|discriminate|cbn [obind]; eauto].
      apply F. eapply compares_looks; eauto. right; left. split; [reflexivity|auto].
  - intros c x decls _ d _. unfold UnusedLocalVariableRule, skippedTypes. rewrite !stringForKey_get. cbn [obind fst snd]. rewrite !stringForKey_get. cbn [obind fst snd]. eauto.
Qed.
(** A number that does not fit. *)
Definition row_trips (p : shipped * behaviour) : Prop :=
  let '(s, b) := p in
  forall c key default T, numeric s key default -> stands_for c key default T -> ~ in_int T ->
  match b with
  | BChecked rule => forall x, (forall d, (exists r, rule c x d = Val r) \/ rule c x d = UB)
      /\ forall d n, below d n -> compares (sh_name s) n -> rule c x d = UB
  | BSetUp rule => In (sh_name s) reads_early /\ forall x decls, rule c x decls = UB
  | BStack => forall stack d n decls, In d decls -> below d n -> compares (sh_name s) n -> ShortVariableName_run c stack decls = UB
  | BLines => intForKey c $"LONG_LINE" 100 = UB
  | _ => False
  end.
Lemma outcome_mixed visit : (forall n, (exists r, visit n = Val r) \/ visit n = UB) ->
  (forall d, (exists r, reports_outcome visit d = Val r) \/ reports_outcome visit d = UB)
  /\ forall d n, below d n -> visit n = UB -> reports_outcome visit d = UB.
Proof.
  intros H. assert (G : forall d n, below d n -> visit n = UB -> reports_outcome visit d = UB)
    by (intros d n Hn E; apply outcome_fails; [discriminate|auto|eauto]). split; auto.
  intros d. assert (C : (forall m, In m (nodes d) -> exists r, visit m = Val r) \/ exists m, In m (nodes d) /\ visit m = UB).
  { induction (nodes d) as [|m l IH]; [left; intros ? []|]. destruct (H m) as [V|V]; [|right; exists m; split; [now left|auto]].
    destruct IH as [IH|(m' & I & U)]; [left; intros m' [<-|I]; auto|right; exists m'; split; [now right|auto]]. }
  destruct C as [C|(m & I & U)]; [left; apply outcome_all; intros m Hm; apply C; now apply in_nodes|right; apply (G d m); auto; now apply in_nodes].
Qed.
Lemma limit_trips c key d reads visit : intForKey c key d = UB ->
  (forall root, (exists r, with_limit c key d reads visit root = Val r) \/ with_limit c key d reads visit root = UB)
  /\ forall root n, below root n -> reads n = true -> with_limit c key d reads visit root = UB.
Proof.
  intros E. unfold with_limit. rewrite E. cbn [obind].
  destruct (outcome_mixed (fun n => if reads n then UB else Val [])) as [M1 M2]; [intros n; destruct (reads n); eauto|].
  split; [exact M1|]. intros root n Hn R. apply (M2 root n Hn). now rewrite R.
Qed.
Ltac at_name H := unfold compares in H; cbn [In sh_name] in H;
  repeat (destruct H as [H|H]; [solve [destruct H as [H _]; by_name H]|]);
  try (destruct H as [H|H]; [|solve [repeat (destruct H as [H|H]; [solve [destruct H as [H _]; by_name H]|]); destruct H as [H _]; by_name H]]);
  destruct H as [_ H].
Lemma rows_trip : Forall row_trips shipped_behaviours.
Proof.
  unfold shipped_behaviours. repeat match goal with |- Forall _ (_ :: _) => apply Forall_cons | |- Forall _ [] => apply Forall_nil end; unfold row_trips.
  all: try (intros c key default T [[] _] _ _; fail).
  all: try (intros c key default T [[[= <- <-]|[]] _] S N; eapply unfit_int in S; [|exact N|vm_compute; reflexivity]).
  all: try exact S.
  all: try (split; [cbn; tauto|intros x decls; unfold LongClassRule, TooManyFieldsRule, TooManyMethodsRule, TooManyParametersRule, PreferEarlyExitRule, with_setUp; rewrite S; reflexivity]).
  all: try (intros x; unfold CyclomaticComplexityRule, NcssMethodCountRule, NestedBlockDepthRule, LongMethodRule, TooFewBranchesRule;
    match goal with |- (forall d, (exists r, with_limit ?c ?key ?d0 ?reads ?visit d = Val r) \/ _) /\ _ =>
      let L1 := fresh in let L2 := fresh in destruct (limit_trips c key d0 reads visit S) as [L1 L2]; split; [exact L1|];
      intros d n Hn C; apply (L2 d n Hn); at_name C; first [now apply method_iff|now apply block_iff|now apply candidate_iff|now apply switch_iff] end).
  - intros x. unfold LongVariableNameRule. rewrite S. cbn [obind].
    destruct (outcome_mixed (fun n => if isVarDecl n then UB else Val [])) as [M1 M2]; [intros n; destruct (isVarDecl n); eauto|].
    split; [exact M1|]. intros d n Hn C. apply (M2 d n Hn). at_name C. apply variable_iff in C. now rewrite C.
  - intros stack d n decls Hd Hn C. rewrite short_cases, S. at_name C. apply variable_iff in C.
    replace (existsb isVarDecl (all_nodes decls)) with true; [reflexivity|]. symmetry. apply existsb_exists. exists n. split; auto.
    unfold all_nodes. apply in_flat_map. exists d. split; auto. now apply in_nodes.
  - intros x. unfold NPathComplexityRule. rewrite S. cbn [obind].
    destruct (outcome_mixed (NPathComplexity_visit UB)) as [M1 M2]; [intros n; apply npath_node_cases; exact I|].
    split; [exact M1|]. intros d n Hn C. apply (M2 d n Hn). at_name C. destruct C as (b & Hb & Cb). eapply npath_node_unread; eauto.
  - intros c key default T [[[= <- <-]|[[= <- <-]|[]]] [z R]] S N; apply reads_digit in R; vm_compute in R; discriminate.
Qed.

(** ** A rule on a unit *)
Lemma takeoff_val c k x st s b : nth_error shipped_behaviours k = Some (s, b) -> b <> BLines ->
  (exists r, calls b c x (r_stack st) (set_up x s) (roots_of x s) = Val r) -> exists vs st', takeoff c k x st = Val (vs, st').
Proof.
  intros K B (r & E). unfold takeoff. rewrite K. destruct b; try congruence; rewrite E; cbn [obind]; destruct (fold_left _ _ _) as [vs sc]; eauto.
Qed.
Lemma takeoff_fails c k x st s b : nth_error shipped_behaviours k = Some (s, b) -> b <> BLines ->
  (calls b c x (r_stack st) (set_up x s) (roots_of x s) = UB -> takeoff c k x st = UB)
  /\ (forall m, calls b c x (r_stack st) (set_up x s) (roots_of x s) = Exc m -> takeoff c k x st = Exc m).
Proof. intros K B. unfold takeoff. rewrite K. split; [intros E|intros m E]; destruct b; try congruence; rewrite E; reflexivity. Qed.
Lemma lines_val c u k T : intForKey c $"LONG_LINE" 100 = Val (T, c) -> forall vs sc, exists r, LongLine_apply c u k vs sc = Val r.
Proof.
  intros E. unfold LongLine_apply. induction (source_lines (u_content u)) as [|[n l] ls IH]; intros vs sc; cbn [LongLine_loop]; [eauto|].
  unfold LongLine_eachLine at 1. rewrite E. cbn [obind fst]. destruct (T <? Z.of_nat (length l))%Z; cbn [obind fst snd]; apply IH.
Qed.
Lemma lines_ub c u k vs sc : intForKey c $"LONG_LINE" 100 = UB -> u_content u <> [] -> LongLine_apply c u k vs sc = UB.
Proof.
  intros E N. unfold LongLine_apply, source_lines. destruct (lines_loop_spec (length (u_content u)) (u_content u) 1 (le_n _)) as (ls & L & ->).
  destruct ls as [|l ls].
  - exfalso. destruct L as [_ [L|(_ & _ & L)]]; cbn in L; [congruence|]. destruct (u_content u); discriminate.
  - cbn [numbered LongLine_loop]. unfold LongLine_eachLine at 1. rewrite E. reflexivity.
Qed.
(** Whether a rule completes does not depend on what ran before. *)
Lemma takeoff_history c k x st1 st2 vs st' : takeoff c k x st1 = Val (vs, st') -> exists vs2 st2', takeoff c k x st2 = Val (vs2, st2').
Proof.
  intros H. destruct (nth_error shipped_behaviours k) as [[s b]|] eqn:K; [|unfold takeoff in H; rewrite K in H; discriminate].
  assert (D : b = BLines \/ b <> BLines) by (destruct b; auto; right; discriminate). destruct D as [->|B].
  - pose proof rows_fine as _. unfold takeoff in *. rewrite K in *. unfold LongLine_apply in *.
    destruct (source_lines (u_content (e_unit (cx_env x)))) as [|[n l] ls] eqn:S; [cbn; eauto|].
    destruct (intForKey c $"LONG_LINE" 100) as [[T c']|m|] eqn:E.
    + assert (c' = c) as -> by (rewrite intForKey_get in E; destruct (cfg_get c $"LONG_LINE") as [v|]; [destruct (atoi v); cbn in E|]; congruence).
      destruct (lines_val c (e_unit (cx_env x)) k T E [] (r_cache st2)) as [r R]. unfold LongLine_apply in R. rewrite S in R.
      rewrite R. cbn [obind]. eauto.
    + exfalso. cbn [LongLine_loop] in H. unfold LongLine_eachLine in H at 1. rewrite E in H. discriminate.
    + exfalso. cbn [LongLine_loop] in H. unfold LongLine_eachLine in H at 1. rewrite E in H. discriminate.
  - apply (takeoff_val c k x st2 s b K B).
    assert (G : exists r, calls b c x (r_stack st1) (set_up x s) (roots_of x s) = Val r).
    { destruct (takeoff_fails c k x st1 s b K B) as [F1 F2]. destruct (calls b c x (r_stack st1) (set_up x s) (roots_of x s)) as [r|m|]; [eauto| |].
      - rewrite (F2 m eq_refl) in H. discriminate.
      - rewrite (F1 eq_refl) in H. discriminate. }
    destruct G as [r G]. destruct b; cbn [calls] in *; eauto.
    + destruct (each_root (rule c x) (roots_of x s)); cbn [obind] in *; try discriminate. eauto.
    + destruct (set_up x s); [|eauto]. destruct (rule c x (roots_of x s)); cbn [obind] in *; try discriminate. eauto.
    + rewrite short_cases in G |- *. destruct (intForKey c $"SHORT_VARIABLE_NAME" 3) as [[T c']| |]; try (destruct (existsb _ _); try discriminate); eauto.
Qed.

(** ** Runs *)
Lemma unit_run_exists c rules x : (forall k, In k rules -> exists vs st, takeoff c k x r_initial = Val (vs, st)) ->
  forall st, exists vss st', unit_run (takeoff c) rules x st vss st'.
Proof.
  induction rules as [|k rules IH]; intros H st; [exists [], st; constructor|].
  destruct (H k (or_introl eq_refl)) as (v0 & s0 & E). destruct (takeoff_history _ _ _ _ st _ _ E) as (vs & st1 & E1).
  destruct (IH (fun k' I => H k' (or_intror I)) st1) as (vss & st2 & U). exists (vs :: vss), st2. econstructor; eauto.
Qed.
Lemma units_run_exists c rules xs : (forall x k, In x xs -> In k rules -> exists vs st, takeoff c k x r_initial = Val (vs, st)) ->
  forall st, exists all st', units_run (takeoff c) rules xs st all st'.
Proof.
  induction xs as [|x xs IH]; intros H st; [exists [], st; constructor|].
  destruct (unit_run_exists c rules x (fun k => H x k (or_introl eq_refl)) st) as (vss & st1 & U).
  destruct (IH (fun y k I => H y k (or_intror I)) st1) as (all & st2 & V). exists (vss :: all), st2. econstructor; eauto.
Qed.
Lemma unit_run_each c rules x st vss st' : unit_run (takeoff c) rules x st vss st' ->
  forall k, In k rules -> exists vs s, takeoff c k x r_initial = Val (vs, s).
Proof.
  intros U. induction U as [|k rules x st vs st1 rest st2 E U IH]; intros k' I; [destruct I|]. destruct I as [<-|I]; auto.
  eapply takeoff_history; eauto.
Qed.
Lemma units_run_each c rules xs st all st' : units_run (takeoff c) rules xs st all st' ->
  forall x k, In x xs -> In k rules -> exists vs s, takeoff c k x r_initial = Val (vs, s).
Proof.
  intros U. induction U as [|x xs st vss st1 rest st2 V U IH]; intros y k I J; [destruct I|]. destruct I as [<-|I]; auto.
  eapply unit_run_each; eauto.
Qed.
