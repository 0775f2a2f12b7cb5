(** * C57-C59, C72: switch rules and base-class destructors; C80-C87: other conventions *)
From Verif Require Import Base BaseFacts ModelConfig ModelAST ModelRules ModelRulesBasic ModelRulesConvention SpecFilter
  SpecAST SpecRules SpecExec SpecRulesBasic SpecRulesConvention ProofFilter ProofAST ProofRules ProofExec ProofExecSeq
  ProofRulesBasic ProofRulesConvention PropAST PropRulesBasic.
Local Arguments lit : simpl never.

(** ** C57 *)
(** The switches reported, and how often: by the first case group that is not terminated. *)
Theorem c57_by_first_unterminated_group : forall root,
  reports_per_node missing_break_reports root (reports MissingBreak_visit root).
Proof.
  intros root. apply reports_per_node_intro. intros n. unfold MissingBreak_visit.
  destruct (n_shape n) eqn:E; try (apply mb_other; congruence).
  destruct (n_shape body) eqn:B; try (apply mb_other; congruence).
  rename body0 into l. destruct (groups_of l) as (lead & gs & G). pose proof G as (-> & HL & HG).
  rewrite loop_lead by auto. change (concat (map (fun g => fst g :: snd g) gs)) with (flat gs) in *.
  destruct (loop_groups gs HG) as [[A ->]|(g1 & g & g2 & -> & A & N & ->)].
  - eapply mb_fine; eauto.
  - destruct g2 as [|g' g2]; cbn [repeat].
    + eapply mb_last; eauto.
    + eapply mb_twice; eauto.
Qed.
(** Every body falls into groups, in one way. *)
Theorem c57_groups_exist : forall l, exists lead gs, grouped l lead gs.
Proof. apply groups_of. Qed.
Theorem c57_groups_unique : forall l lead gs lead' gs', grouped l lead gs -> grouped l lead' gs' -> lead = lead' /\ gs = gs'.
Proof.
  assert (Z : forall x, case_or_default x -> forall l, ~ Forall (fun m => ~ case_or_default m) (x :: l))
    by (intros x Hx l F; inversion F; auto).
  assert (L : forall lead lead' r r', Forall (fun m => ~ case_or_default m) lead -> Forall (fun m => ~ case_or_default m) lead' ->
     (match r with [] => True | x :: _ => case_or_default x end) -> (match r' with [] => True | x :: _ => case_or_default x end) ->
     lead ++ r = lead' ++ r' -> lead = lead' /\ r = r').
  { induction lead as [|a lead IH]; intros [|b lead'] r r' H H' C C' E; cbn [app] in E.
    - auto.
    - subst r. exfalso. eapply Z; eauto.
    - subst r'. exfalso. eapply Z; eauto.
    - injection E as <- E. inversion H; inversion H'; subst. destruct (IH lead' r r') as [-> ->]; auto. }
  assert (H : forall gs, Forall group_ok gs -> match flat gs with [] => True | x :: _ => case_or_default x end).
  { intros [|g gs] F; cbn; auto. inversion F as [|? ? [A _] _]. exact A. }
  assert (G : forall gs gs', Forall group_ok gs -> Forall group_ok gs' -> flat gs = flat gs' -> gs = gs').
  { induction gs as [|[a r] gs IH]; intros [|[a' r'] gs'] F F' E; cbn in E; try discriminate; auto.
    injection E as <- E. inversion F as [|? ? [A B] F1]; inversion F' as [|? ? [A' B'] F1']; subst.
    change (r ++ flat gs = r' ++ flat gs') in E.
    destruct (L r r' (flat gs) (flat gs') B B' (H gs F1) (H gs' F1') E) as [-> E2]. f_equal. exact (IH gs' F1 F1' E2). }
  intros l lead gs lead' gs' (-> & A & B) (E & A' & B').
  destruct (L lead lead' (flat gs) (flat gs') A A' (H gs B) (H gs' B') E) as [-> E2]. split; [reflexivity|]. exact (G gs gs' B B' E2).
Qed.
(** A switch all of whose groups end in a leaving statement is not reported. *)
Theorem c57_all_groups_leave : forall n p c b x l lead gs,
  n_shape n = SwitchStmt p c b x -> n_shape b = CompoundStmt l -> grouped l lead gs ->
  (forall g, In g gs -> exists pre m, fst g :: snd g = pre ++ [m] /\
      (leaving m \/ (pre = [] /\ contains_leaving m))) ->
  MissingBreak_visit n = [].
Proof.
  intros n p c b x l lead gs E B (-> & HL & HG) H. unfold MissingBreak_visit. rewrite E, B, loop_lead by auto.
  destruct (loop_groups gs HG) as [[A K]|(g1 & g & g2 & -> & A & N & _)]; [unfold flat in K; now rewrite K|].
  exfalso. apply N. destruct (H g) as (pre & m & E2 & K); [apply in_or_app; simpl; auto|].
  destruct pre as [|y pre]; cbn [app] in E2; injection E2 as E2 E3.
  - left. subst m. destruct K as [K|[_ K]]; auto. exists (fst g). split; [constructor|auto].
  - destruct K as [K|[K _]]; [|discriminate]. right. exists m. split; auto. rewrite E3. apply in_or_app. simpl; auto.
Qed.
(** [switch (a) { case 1: a; case 2: break; }] is reported twice, [… case 2: a; }] alone once. *)
Definition ex_case (i : nat) (m : node) : node := nd i (CaseStmt (nd (i + 1) (IntegerLiteral 1)) m).
Definition ex_switch (l : list node) : node := nd 1 (SwitchStmt [] (var 2) (nd 3 (CompoundStmt l)) false).
Definition brk (i : nat) : node := nd i BreakStmt.
Example c57_case :
  map (fun l => length (reports MissingBreak_visit (ex_switch l)))
    [[ex_case 10 (var 12); brk 13; ex_case 20 (brk 22)]; [ex_case 10 (var 12); ex_case 20 (brk 22)]; [ex_case 10 (brk 12); ex_case 20 (var 22)]]
  = [0; 2; 1].
Proof. reflexivity. Qed.
(** Finding: a break of a loop inside a case counts, so a fall-through goes unreported:
    [case 1: while (a) break; case 2: break;] reaches case 2 from case 1. *)
Definition ex_inner_break : list node := [ex_case 10 (nd 12 (WhileStmt [] (var 13) (brk 14))); ex_case 20 (brk 22)].
Theorem c57_inner_loop_break_refuted : exists n body, n = ex_switch ex_inner_break /\ body = nd 3 (CompoundStmt ex_inner_break)
  /\ reports MissingBreak_visit n = []
  /\ forall st (atom : node -> st -> value -> st -> Prop) select s s', atom (var 13) s (Truth true) s' ->
     exists t o s'', exec atom select body (AtCase 10) s t o s'' /\ In (body, 1) t.
Proof.
  do 2 eexists. split; [reflexivity|]. split; [reflexivity|]. split; [reflexivity|].
  intros st atom select s s' A. do 3 eexists. split.
  - eapply x_compound; [reflexivity|]. eapply xs_enter.
    + eapply (in_case (ex_case 10 _)). reflexivity.
    + eapply (x_case_here _ _ (ex_case 10 _)); [reflexivity|]. eapply x_loop; [reflexivity|apply es_nil|].
      cbn [lp_bodyFirst]. eapply r_again.
      * cbn [lp_pre lp_test]. eapply hd_cond; [apply es_nil|]. apply ev_atom; [intros K; exact K|exact A].
      * apply r_break. apply x_break. reflexivity.
    + apply xs_abrupt. eapply x_case; [reflexivity|]. apply x_break. reflexivity.
  - simpl. auto.
Qed.
(** Finding: the converse.  [case 1: a; if (a) return; else return; case 2: break;] cannot fall
    through, and [case 1: goto l; case 2: break;] neither, but both are reported (twice). *)
Definition ex_both_return : list node :=
  [ex_case 10 (var 12); nd 13 (IfStmt [] (var 14) (nd 15 (ReturnStmt None)) (Some (nd 16 (ReturnStmt None)))); ex_case 20 (brk 22)].
Definition ex_goto : list node := [ex_case 10 (nd 12 (GotoStmt $"l")); ex_case 20 (brk 22)].
Theorem c57_no_fall_through_refuted :
  length (reports MissingBreak_visit (ex_switch ex_both_return)) = 2
  /\ length (reports MissingBreak_visit (ex_switch ex_goto)) = 2
  /\ forall st (atom : node -> st -> value -> st -> Prop) select s t o s',
     (exec atom select (nd 3 (CompoundStmt ex_both_return)) (AtCase 10) s t o s' -> ~ In (nd 3 (CompoundStmt ex_both_return), 2) t)
     /\ (exec atom select (nd 3 (CompoundStmt ex_goto)) (AtCase 10) s t o s' -> ~ In (nd 3 (CompoundStmt ex_goto), 1) t).
Proof.
  split; [reflexivity|]. split; [reflexivity|]. intros st atom select s t o s'. split; intros X K.
  - pose proof (proj1 (exec_clean atom select) _ _ _ _ _ _ X _ _ K) as C. apply C.
    exists 1, ex_both_return, (nd 13 (IfStmt [] (var 14) (nd 15 (ReturnStmt None)) (Some (nd 16 (ReturnStmt None))))).
    split; [reflexivity|]. split; [reflexivity|]. split; [reflexivity|]. split.
    + eapply aj_if; [reflexivity| |]; apply aj_jump; right; right; left; exists None; reflexivity.
    + apply ol_none. intros en I. inversion I; subst; try discriminate.
      match goal with J : In _ (enterable _) |- _ => destruct J as [<-|[<-|[]]] end;
        match goal with J : inside _ _ |- _ => inversion J; subst; try discriminate; contradiction end.
  - pose proof (proj1 (exec_clean atom select) _ _ _ _ _ _ X _ _ K) as C. apply C.
    exists 0, ex_goto, (ex_case 10 (nd 12 (GotoStmt $"l"))).
    split; [reflexivity|]. split; [reflexivity|]. split; [reflexivity|]. split.
    + eapply aj_case; [reflexivity|]. apply aj_jump. right. right. right. left. exists $"l". reflexivity.
    + eapply ol_case; [reflexivity|]. apply ol_none. intros en I. inversion I; subst; try discriminate. contradiction.
Qed.

(** ** C58 *)
Theorem c58_missing_default_exactly : forall root,
  reports_exactly (fun n => exists p c b, n_shape n = SwitchStmt p c b false /\ ~ exists d, own_label b d /\ is_default d)
    (fun n => Report n []) root (reports MissingDefault_visit root).
Proof.
  intros root. apply reports_exactly_intro. intros n. unfold MissingDefault_visit.
  destruct (n_shape n) eqn:E; try (right; split; [intros (? & ? & ? & K & _); congruence|reflexivity]).
  destruct allEnumCasesCovered; [right; split; [intros (? & ? & ? & K & _); congruence|reflexivity]|].
  pose proof (has_default body) as D. destruct (existsb isDefaultStmt (getSwitchCaseList body)); cbn [negb].
  - right. split; [|reflexivity]. intros (p & c & b & K & N). apply N. replace b with body by congruence. now apply D.
  - left. split; [|reflexivity]. do 3 eexists. split; [reflexivity|]. intros K. apply D in K. discriminate.
Qed.
Theorem c58_unnecessary_default_exactly : forall root,
  reports_exactly (fun n => exists p c b, n_shape n = SwitchStmt p c b true /\ exists d, own_label b d /\ is_default d)
    (fun n => Report n []) root (reports UnnecessaryDefault_visit root).
Proof.
  intros root. apply reports_exactly_intro. intros n. unfold UnnecessaryDefault_visit.
  destruct (n_shape n) eqn:E; try (right; split; [intros (? & ? & ? & K & _); congruence|reflexivity]).
  pose proof (has_default body) as D. destruct (existsb isDefaultStmt (getSwitchCaseList body)); cbn [andb].
  - destruct allEnumCasesCovered.
    + left. split; [|reflexivity]. do 3 eexists. split; [reflexivity|]. now apply D.
    + right. split; [|reflexivity]. intros (p & c & b & K & N). congruence.
  - right. split; [|reflexivity]. intros (p & c & b & K & N). assert (b = body) as -> by congruence. apply D in N. discriminate.
Qed.
Theorem c58_never_both : forall root root' n, In (Report n []) (reports MissingDefault_visit root) ->
  ~ In (Report n []) (reports UnnecessaryDefault_visit root').
Proof.
  intros root root' n H K.
  destruct (c58_missing_default_exactly root) as (sel & S & E). destruct (c58_unnecessary_default_exactly root') as (sel' & S' & E').
  rewrite E in H. rewrite E' in K. apply in_map_iff in H as (m & [= ->] & H). apply in_map_iff in K as (m' & [= ->] & K).
  assert (W : forall (P : node -> Prop) l s x, sublist_where P l s -> In x s -> P x).
  { intros P l s x W. induction W; [intros []|intros [<-|J]; auto|auto]. }
  apply (W _ _ _ _ S) in H as (p & c & b & A & _). apply (W _ _ _ _ S') in K as (p' & c' & b' & A' & _). congruence.
Qed.
(** Labels in source order are the labels that are there. *)
Theorem c58_labels_complete : forall n d, In d (labels n) <-> own_label n d.
Proof. apply in_labels. Qed.
(** The default label is reported if case labels follow it, as long as no label stands directly
    behind a default label. *)
Theorem c58_misplaced_default_exactly : forall root,
  (forall n p c b x, below root n -> n_shape n = SwitchStmt p c b x -> default_bears_no_label b) ->
  reports_related default_before_case root (reports MisplacedDefault_visit root).
Proof.
  intros root H. unfold reports_related. rewrite reports_nodes.
  assert (Q : forall n, In n (nodes root) -> forall p c b x, n_shape n = SwitchStmt p c b x -> default_bears_no_label b)
    by (intros n Hn p c b x; apply H; now apply in_nodes).
  clear H. induction (nodes root) as [|a l IH].
  - exists []. split; constructor.
  - destruct IH as (sel & S & F); [intros; eapply Q; simpl; eauto|]. cbn [flat_map].
    destruct (misplaced_node a) as [(m & Hm & E)|[N E]]; [apply Q; simpl; auto| |]; rewrite E.
    + exists (a :: sel). split; [constructor; eauto|]. constructor; eauto.
    + exists sel. split; [constructor; auto|exact F]. intros (m & K). eapply N; eauto.
Qed.
Theorem c58_misplaced_unique : forall sw d d', default_before_case sw d -> default_before_case sw d' -> d = d'.
Proof. apply default_before_case_det. Qed.
Definition ex_defaults (covered : bool) (l : list node) : node := nd 1 (SwitchStmt [] (var 2) (nd 3 (CompoundStmt l)) covered).
Definition dflt (i : nat) (m : node) : node := nd i (DefaultStmt m).
(** no default; default covered; default first; a default of a nested switch does not count *)
Example c58_case :
  map (fun n => (length (reports MissingDefault_visit n), length (reports UnnecessaryDefault_visit n),
                 map (fun r => n_id (rp_node r)) (reports MisplacedDefault_visit n)))
    [ex_defaults false [ex_case 10 (brk 12)]; ex_defaults true [ex_case 10 (brk 12); dflt 20 (brk 21)];
     ex_defaults false [dflt 20 (brk 21); ex_case 10 (brk 12); ex_case 30 (brk 32)];
     ex_defaults false [ex_case 10 (nd 12 (SwitchStmt [] (var 13) (nd 14 (CompoundStmt [dflt 20 (brk 21)])) false))]]
  = [(1, 0, []); (0, 1, []); (0, 0, [20]); (1, 0, [])].
Proof. reflexivity. Qed.
Example c58_case_hypothesis : default_bears_no_label (nd 3 (CompoundStmt [dflt 20 (brk 21); ex_case 10 (brk 12); ex_case 30 (brk 32)])).
Proof.
  intros d m O E. apply in_labels in O. cbn in O. destruct O as [<-|[<-|[<-|[]]]]; cbn in E; try discriminate.
  injection E as <-. reflexivity.
Qed.
(** Finding: in [default: case 1: …] a case label follows the default label, but the default is
    not reported, since Clang enters it after its sub-statement. *)
Theorem c58_default_with_label_refuted : exists n d, default_before_case n d /\ reports MisplacedDefault_visit n = [].
Proof.
  exists (ex_defaults false [dflt 20 (ex_case 10 (brk 12))]), (dflt 20 (ex_case 10 (brk 12))). split; [|reflexivity].
  eexists _, _, _, _, [], [ex_case 10 (brk 12)]. split; [reflexivity|]. split; [reflexivity|].
  split; [eexists; reflexivity|]. split; [discriminate|]. repeat constructor. do 2 eexists. reflexivity.
Qed.

(** ** C59 *)
Lemma switch_reads T n : isSwitchStmt n = false -> TooFewBranches_visit T n = [].
Proof. unfold isSwitchStmt, TooFewBranches_visit. destruct (n_shape n); congruence. Qed.
Theorem c59_fewer_than_limit : forall c root T c' rs,
  intForKey c $"MINIMUM_CASES_IN_SWITCH" 3 = Val (T, c') -> TooFewBranchesRule c root = Val rs ->
  reports_exactly (fun n => is_switch n /\ exists cases, sublist_where is_case (nodes n) cases /\ (Z.of_nat (length cases) < T)%Z)
    (fun n => Report n []) root rs.
Proof.
  intros c root T c' rs HT H. unfold TooFewBranchesRule in H. rewrite (limit_val _ _ _ _ _ _ _ _ HT) in H by apply switch_reads. injection H as <-.
  apply reports_exactly_intro. intros n. unfold TooFewBranches_visit, is_switch.
  destruct (n_shape n) eqn:E; try (right; split; [intros [(? & ? & ? & ? & K) _]; congruence|reflexivity]).
  assert (S : sublist_where is_case (nodes n) (collect (fun m => if isCaseStmt m then [m] else []) n)).
  { apply collect_where. intros m. pose proof (isCase_iff m) as I. destruct (isCaseStmt m); [left|right]; split; auto.
    - now apply I.
    - intros K. apply I in K. discriminate. }
  unfold countCaseStmts. destruct (_ <? _)%Z eqn:L.
  - left. split; [|reflexivity]. split; [do 4 eexists; reflexivity|]. eexists. split; [exact S|]. now apply Z.ltb_lt.
  - right. split; [|reflexivity]. intros [_ (cases & S' & K)]. rewrite (sublist_where_det _ _ _ _ S' S) in K.
    apply Z.ltb_lt in K. congruence.
Qed.
Theorem c59_total : forall c root T c', intForKey c $"MINIMUM_CASES_IN_SWITCH" 3 = Val (T, c') ->
  exists rs, TooFewBranchesRule c root = Val rs.
Proof. intros. unfold TooFewBranchesRule. rewrite (limit_val _ _ _ _ _ _ _ _ H) by apply switch_reads. eauto. Qed.
Example c59_case : exists T c', intForKey cfg_fresh $"MINIMUM_CASES_IN_SWITCH" 3 = Val (T, c') /\
  map (fun l => match TooFewBranchesRule cfg_fresh (ex_switch l) with Val rs => length rs | _ => 9 end)
    [[ex_case 10 (brk 12); ex_case 20 (brk 22)]; [ex_case 10 (brk 12); ex_case 20 (brk 22); ex_case 30 (brk 32)]] = [1; 0].
Proof. do 2 eexists. split; reflexivity. Qed.
(** Finding: cases of a nested switch are counted for the outer one. *)
Theorem c59_nested_cases_refuted : exists n p c b x, n_shape n = SwitchStmt p c b x
  /\ (forall cases, sublist_where is_case (labels b) cases -> length cases = 1)
  /\ match TooFewBranchesRule cfg_fresh n with Val rs => ~ In (Report n []) rs | _ => False end.
Proof.
  exists (ex_switch [ex_case 10 (nd 12 (SwitchStmt [] (var 13) (nd 14 (CompoundStmt [ex_case 20 (brk 22); ex_case 30 (brk 32)])) false))]).
  do 4 eexists. split; [reflexivity|]. split.
  - intros cases H. cbn in H. inversion H; subst.
    + inversion H4; subst. reflexivity.
    + exfalso. apply H2. do 2 eexists. reflexivity.
  - cbn. intros [K|[]]. discriminate.
Qed.

(** ** C80 *)
Theorem c80_labels_of_each_switch : forall root,
  reports_per_node (fun n rs => (is_switch n /\ exists ls, sublist_where is_label (nodes n) ls /\ rs = map (fun m => Report m []) ls)
                                \/ (~ is_switch n /\ rs = [])) root (reports NonCaseLabel_visit root).
Proof.
  intros root. apply reports_per_node_intro. intros n. unfold NonCaseLabel_visit, is_switch.
  destruct (n_shape n) eqn:E; try (right; split; [intros (? & ? & ? & ? & K); congruence|reflexivity]).
  left. split; [do 4 eexists; reflexivity|]. eexists. split; [|reflexivity].
  apply collect_where. intros m. unfold is_label. destruct (n_shape m); try (right; split; [intros (? & ? & K); discriminate|reflexivity]).
  left. eauto.
Qed.
Example c80_case : map (fun r => n_id (rp_node r)) (reports NonCaseLabel_visit
   (nd 0 (CompoundStmt [nd 40 (LabelStmt $"k" (var 41)); ex_switch [ex_case 10 (nd 12 (LabelStmt $"l" (brk 13)))]]))) = [12].
Proof. reflexivity. Qed.
(** Finding: a label in a nested switch is reported once per switch around it. *)
Theorem c80_nested_reported_twice_refuted : exists root m, below root m /\ is_label m /\
  reports NonCaseLabel_visit root = [Report m []; Report m []].
Proof.
  exists (ex_switch [ex_case 10 (nd 12 (SwitchStmt [] (var 13) (nd 14 (LabelStmt $"l" (brk 15))) false))]), (nd 14 (LabelStmt $"l" (brk 15))).
  split; [apply in_nodes; cbn; tauto|]. split; [do 2 eexists; reflexivity|reflexivity].
Qed.

(** ** C81 *)
Theorem c81_exactly_negated_two_way : forall root,
  reports_related (fun n c => two_way n c /\ negated c) root (reports InvertedLogic_visit root).
Proof. intros. apply reports_related_intro. intros n. apply inverted_node. Qed.
(** The advice, to swap the branches and drop the negation, keeps the behaviour of an if ... *)
Theorem c81_swapping_if_preserves : forall st (atom : node -> st -> value -> st -> Prop) select n k p c d t e,
  n_shape n = IfStmt p c t (Some e) -> n_shape c = UnaryOperator UO_LNot d ->
  n_shape k = IfStmt p d e (Some t) -> equivalent atom select n k.
Proof. intros. eapply swap_branches; eauto. now apply not_negates. Qed.
(** ... and of a choice expression; also for [!=] if [==] yields the opposite truth value. *)
Theorem c81_swapping_choice_preserves : forall st (atom : node -> st -> value -> st -> Prop) n k c d t f,
  n_shape n = ConditionalOperator c t f -> n_shape c = UnaryOperator UO_LNot d -> n_shape k = ConditionalOperator d f t ->
  forall s v s', eval atom n s v s' <-> eval atom k s v s'.
Proof. intros. eapply swap_choice; eauto. now apply not_negates. Qed.
Theorem c81_swapping_unequal_preserves : forall st (atom : node -> st -> value -> st -> Prop) select n k p c d l r t e,
  (forall s v s', atom c s v s' <-> atom d s (match v with Truth b => Truth (negb b) | Fails a => Fails a end) s') ->
  n_shape n = IfStmt p c t (Some e) -> n_shape c = BinaryOperator BO_NE l r -> n_shape d = BinaryOperator BO_EQ l r ->
  n_shape k = IfStmt p d e (Some t) -> equivalent atom select n k.
Proof.
  intros st atom select n k p c d l r t e A En Ec Ed Ek. eapply swap_branches; eauto.
  assert (Nc : ~ structured c) by (unfold structured; now rewrite Ec).
  assert (Nd : ~ structured d) by (unfold structured; now rewrite Ed).
  intros s v s'. split.
  - inversion 1; subst; try congruence.
    + exists (match v with Truth b => Truth (negb b) | Fails a => Fails a end). split.
      * apply ev_atom; auto. now apply A.
      * destruct v; [now rewrite negb_involutive|reflexivity].
    + exists (Fails ACut). split; [apply ev_cut|reflexivity].
  - intros (w & K & ->). inversion K; subst; try congruence; [|apply ev_cut].
    apply ev_atom; auto. apply A. destruct w; [now rewrite negb_involutive|assumption].
Qed.
Example c81_case : map (fun r => n_id (rp_node r)) (reports InvertedLogic_visit
  (nd 0 (CompoundStmt [nd 1 (IfStmt [] (nd 2 (UnaryOperator UO_LNot (var 3))) (var 4) (Some (var 5)));
                       nd 6 (IfStmt [] (nd 7 (UnaryOperator UO_LNot (var 8))) (var 9) None);
                       nd 10 (ConditionalOperator (nd 11 (BinaryOperator BO_NE (var 12) (var 13))) (var 14) (var 15))]))) = [2; 11].
Proof. reflexivity. Qed.

(** [if (!a) a; else a;] and [if (a) a; else a;] *)
Example c81_case_swap : equivalent (fun _ s v s' => (exists b, v = Truth b) /\ s' = S s) (fun _ _ _ _ => False)
  (nd 1 (IfStmt [] (nd 2 (UnaryOperator UO_LNot (var 3))) (var 4) (Some (var 5)))) (nd 6 (IfStmt [] (var 3) (var 5) (Some (var 4)))).
Proof. eapply c81_swapping_if_preserves; reflexivity. Qed.

(** ** C82 *)
Theorem c82_exactly_early_exits : forall lines c root T c' rs,
  intForKey c $"MAXIMUM_IF_LENGTH" 15 = Val (T, c') -> PreferEarlyExitRule lines c [root] = Val rs ->
  exists sel, sublist_where (fun n => exists m, could_exit_early lines T n m) (nodes root) sel
    /\ Forall2 (fun n r => could_exit_early lines T n (rp_node r)
                /\ rp_message r = $"Use early exit/continue to simplify code and reduce indentation") sel rs.
Proof.
  intros lines c root T c' rs HT H. unfold PreferEarlyExitRule, with_setUp in H. rewrite HT in H. cbn [obind fst flat_map] in H. rewrite app_nil_r in H. injection H as <-.
  apply reports_exactly_related. intros n. apply early_node.
Qed.
Theorem c82_one_per_construct : forall lines T n a b, could_exit_early lines T n a -> could_exit_early lines T n b -> a = b.
Proof. apply could_exit_det. Qed.
(** The advice keeps the behaviour.  At the end of a loop body: [if (!c) continue; t] for [if (c) t]. *)
Theorem c82_early_continue_preserves : forall st (atom : node -> st -> value -> st -> Prop) select n n' L b b' l m c t k d j,
  loop_of n = Some L -> lp_body L = b -> n_shape b = CompoundStmt (l ++ [m]) -> n_shape m = IfStmt [] c t None ->
  loop_of n' = Some (with_body L b') -> n_shape b' = CompoundStmt (l ++ [k; t]) -> n_shape k = IfStmt [] d j None ->
  n_shape d = UnaryOperator UO_LNot c -> n_shape j = ContinueStmt ->
  equivalent atom select n n'.
Proof.
  intros st atom select n n' L b b' l m c t k d j En <- Eb Em En' Eb' Ek Ed Ej.
  assert (NJ : nothing_inside j) by now apply continue_inside.
  assert (JN : forall s o s', does atom select j Start s o s' -> o <> Normal).
  { intros s o s' H. apply (does_continue atom select) in H as [[->| ->] _]; auto; discriminate. }
  eapply loop_exchange; eauto.
  - eapply block_simulates; eauto.
    + intros en x [<-|[]] I. exists t. split; [simpl; auto|]. now apply (if_inside atom select m _ _ en Em).
    + intros. eapply early_forward; eauto using not_negates; [intros; now left|].
      intros s0 o0 s0' D. apply dl_nil in D as (_ & -> & ->). exists (Abrupt AContinue). split; [right; auto|].
      apply (does_continue atom select); auto.
  - eapply block_simulates; eauto.
    + intros en x [<-|[<-|[]]] I; [exfalso; eapply k_inside; eauto|]. exists m. split; [simpl; auto|]. now apply (if_inside atom select m _ _ en Em).
    + intros. eapply early_backward; eauto using not_negates; [intros; now left|].
      intros s0 o0 s0' D. apply (does_continue atom select) in D as [D ->]; auto. exists Normal. split; [|now apply dl_nil].
      right. split; [|auto]. destruct D as [->| ->]; auto.
Qed.
(** Before the final jump [j] of a block: [if (!c) j; t; j] for [if (c) t; j]. *)
Theorem c82_early_jump_preserves : forall st (atom : node -> st -> value -> st -> Prop) select b b' l m c t k d j,
  n_shape b = CompoundStmt (l ++ [m; j]) -> n_shape m = IfStmt [] c t None -> interrupts j ->
  n_shape b' = CompoundStmt (l ++ [k; t; j]) -> n_shape k = IfStmt [] d j None -> n_shape d = UnaryOperator UO_LNot c ->
  equivalent atom select b b'.
Proof.
  intros st atom select b b' l m c t k d j Eb Em J Eb' Ek Ed.
  assert (NJ : nothing_inside j).
  { apply no_labels; unfold enterable, labelled_statement; inversion J; rewrite H; auto;
      intros [(? & ? & Q)|[(? & Q)|(? & ? & Q)]]; discriminate. }
  assert (JN : forall s o s', does atom select j Start s o s' -> o <> Normal).
  { intros s o s' H ->. destruct H as [tr X]. destruct J as [j E|j E|j v E|j x E|j e E]; xinv X. }
  assert (F : forall en s o s', dl atom select (l ++ [m; j]) en s o s' -> dl atom select (l ++ [k; t; j]) en s o s').
  { assert (Q : forall en s o s', dl atom select [m; j] en s o s' -> exists o', o = o' /\ dl atom select [k; t; j] en s o' s');
      [|intros en s o s' D; destruct (exchange_tail atom select eq _ _ (fun o => eq_refl) Q _ _ _ _ _ D) as (o' & <- & D'); exact D'].
    intros. eapply early_forward; eauto using not_negates.
    intros s1 o1 s1' D1. apply dl_one in D1 as [_ D1]. eauto. }
  assert (G : forall en s o s', dl atom select (l ++ [k; t; j]) en s o s' -> dl atom select (l ++ [m; j]) en s o s').
  { assert (Q : forall en s o s', dl atom select [k; t; j] en s o s' -> exists o', o = o' /\ dl atom select [m; j] en s o' s');
      [|intros en s o s' D; destruct (exchange_tail atom select eq _ _ (fun o => eq_refl) Q _ _ _ _ _ D) as (o' & <- & D'); exact D'].
    intros. eapply early_backward; eauto using not_negates.
    intros s1 o1 s1' D1. exists o1. split; auto. apply dl_one. auto. }
  intros en s o s'. rewrite (does_compound atom select b _ _ _ _ _ Eb), (does_compound atom select b' _ _ _ _ _ Eb').
  split; intros [H|H]; auto.
Qed.
(** [for (;;) { if (a) { … } }] with a long if, and [{ if (a) { … } return; }]. *)
Definition ex_long_if : node := nd 5 (IfStmt [] (var 6) (nd 7 (CompoundStmt [])) None).
Example c82_case : exists T c', intForKey cfg_fresh $"MAXIMUM_IF_LENGTH" 15 = Val (T, c') /\
  map (fun n => match PreferEarlyExitRule (fun m => if n_id m =? 5 then 16%Z else 1%Z) cfg_fresh [n] with
                | Val rs => map (fun r => n_id (rp_node r)) rs | _ => [] end)
   [nd 1 (ForStmt None [] None None (nd 2 (CompoundStmt [var 3; ex_long_if])));
    nd 1 (CompoundStmt [ex_long_if; nd 8 (ReturnStmt None)]); nd 1 (CompoundStmt [ex_long_if; var 8])] = [[5]; [5]; []].
Proof. do 2 eexists. split; reflexivity. Qed.

(** [while (a) { a; if (a) {} }] and [while (a) { a; if (!a) continue; {} }] *)
Example c82_case_continue : equivalent (fun _ s v s' => (exists b, v = Truth b) /\ s' = S s) (fun _ _ _ _ => False)
  (nd 1 (WhileStmt [] (var 2) (nd 3 (CompoundStmt [var 4; ex_long_if]))))
  (nd 1 (WhileStmt [] (var 2) (nd 3 (CompoundStmt [var 4;
     nd 8 (IfStmt [] (nd 9 (UnaryOperator UO_LNot (var 6))) (nd 10 ContinueStmt) None); nd 7 (CompoundStmt [])])))).
Proof.
  eapply c82_early_continue_preserves with (l := [var 4]) (b' := nd 3 (CompoundStmt [var 4;
     nd 8 (IfStmt [] (nd 9 (UnaryOperator UO_LNot (var 6))) (nd 10 ContinueStmt) None); nd 7 (CompoundStmt [])])); reflexivity.
Qed.
Example c82_case_jump : equivalent (fun _ s v s' => (exists b, v = Truth b) /\ s' = S s) (fun _ _ _ _ => False)
  (nd 3 (CompoundStmt [ex_long_if; nd 8 (ReturnStmt (Some (var 9)))]))
  (nd 3 (CompoundStmt [nd 10 (IfStmt [] (nd 11 (UnaryOperator UO_LNot (var 6))) (nd 8 (ReturnStmt (Some (var 9)))) None);
     nd 7 (CompoundStmt []); nd 8 (ReturnStmt (Some (var 9)))])).
Proof.
  eapply c82_early_jump_preserves with (l := []) (m := ex_long_if) (j := nd 8 (ReturnStmt (Some (var 9)))); try reflexivity.
  eapply ir_return. reflexivity.
Qed.

(** ** C83 *)
Theorem c83_exactly_last_in_loop : forall root,
  reports_related (fun n m => (exists b l, loop_with_body n b /\ n_shape b = CompoundStmt (l ++ [m])) /\ branching m)
    root (reports AvoidBranching_visit root).
Proof. intros. apply reports_related_intro. intros n. apply branching_node. Qed.
(** A reported continue does nothing: an empty statement in its place behaves alike. *)
Theorem c83_last_continue_is_idle : forall st (atom : node -> st -> value -> st -> Prop) select n n' L b b' l j z,
  loop_of n = Some L -> lp_body L = b -> n_shape b = CompoundStmt (l ++ [j]) -> n_shape j = ContinueStmt ->
  loop_of n' = Some (with_body L b') -> n_shape b' = CompoundStmt (l ++ [z]) -> n_shape z = NullStmt ->
  equivalent atom select n n'.
Proof.
  intros st atom select n n' L b b' l j z En <- Eb Ej En' Eb' Ez.
  assert (NJ : nothing_inside j) by now apply continue_inside.
  assert (NZ : nothing_inside z) by now apply null_inside.
  eapply loop_exchange; eauto.
  - eapply block_simulates; eauto.
    + intros en x [<-|[]] I. exfalso. eapply NJ; eauto.
    + intros en s o s' D. apply dl_one in D as [[->|I] D]; [|exfalso; eapply NJ; eauto].
      apply (does_continue atom select) in D as [[->| ->] ->]; auto.
      * exists Normal. split; [right; auto|]. apply dl_one. split; auto. apply (does_null atom select); auto.
      * exists (Abrupt ACut). split; [left; auto|]. apply dl_one. split; auto. apply does_cut.
  - eapply block_simulates; eauto.
    + intros en x [<-|[]] I. exfalso. eapply NZ; eauto.
    + intros en s o s' D. apply dl_one in D as [[->|I] D]; [|exfalso; eapply NZ; eauto].
      apply (does_null atom select) in D as [[->| ->] ->]; auto.
      * exists (Abrupt AContinue). split; [right; auto|]. apply dl_one. split; auto. apply (does_continue atom select); auto.
      * exists (Abrupt ACut). split; [left; auto|]. apply dl_one. split; auto. apply does_cut.
Qed.
Example c83_case : map (fun r => n_id (rp_node r)) (reports AvoidBranching_visit
  (nd 0 (CompoundStmt [nd 1 (WhileStmt [] (var 2) (nd 3 (CompoundStmt [var 4; nd 5 ContinueStmt])));
     nd 6 (DoStmt (nd 7 (CompoundStmt [brk 8; var 9])) (var 10)); nd 11 (WhileStmt [] (var 12) (brk 13))]))) = [5].
Proof. reflexivity. Qed.

(** ** C84 *)
Theorem c84_assignments_to_parameter_names : forall root,
  reports_per_node (fun n rs =>
      (exists ps sel, callable n ps /\ sublist_where (assigns_parameter_name ps) (nodes n) sel /\ rs = map (fun m => Report m []) sel)
      \/ ((forall ps, ~ callable n ps) /\ rs = [])) root (reports ParameterReassignment_visit root).
Proof.
  intros root. apply reports_per_node_intro. intros n.
  assert (C : (exists ps, callable n ps) \/ forall ps, ~ callable n ps).
  { destruct (n_shape n) eqn:E; try (right; intros ps K; inversion K; congruence); left; eexists; econstructor; exact E. }
  destruct C as [(ps & C)|C].
  - left. destruct (reassignment_of _ _ C) as (sel & S & E). eauto.
  - right. split; [exact C|]. now apply reassignment_other.
Qed.
(** Finding: comparison is by name, so an assignment to a local variable that hides the parameter
    is reported: [void f(int x) { { int x; x = 1; } }]. *)
Definition ex_shadow : node :=
  nd 0 (FunctionDecl {| f_name := $"f"; f_method := None; f_isDefinition := true; f_bodyLines := 3 |}
     [nd 1 (VarDecl (ex_vi $"x") None)]
     (Some (nd 2 (CompoundStmt [nd 3 (DeclStmt [nd 4 (VarDecl (ex_vi $"x") None)]);
        nd 5 (BinaryOperator BO_Assign (nd 6 (DeclRefExpr 4 $"x" false)) (nd 7 (IntegerLiteral 1)))])))).
Example c84_case : map (fun r => n_id (rp_node r)) (reports ParameterReassignment_visit
  (nd 0 (FunctionDecl {| f_name := $"f"; f_method := None; f_isDefinition := true; f_bodyLines := 3 |}
     [nd 1 (VarDecl (ex_vi $"x") None); nd 8 (VarDecl (ex_vi $"y") None)]
     (Some (nd 2 (CompoundStmt [nd 5 (BinaryOperator BO_Assign (nd 6 (DeclRefExpr 1 $"x" false)) (nd 7 (DeclRefExpr 8 $"y" false)));
                                nd 9 (BinaryOperator BO_Assign (nd 10 (DeclRefExpr 11 $"z" false)) (nd 12 (IntegerLiteral 1)))])))))) = [5].
Proof. vm_compute. reflexivity. Qed.
Theorem c84_shadowing_refuted : exists root m l r d name en,
  reports ParameterReassignment_visit root = [Report m []] /\ n_shape m = BinaryOperator BO_Assign l r
  /\ n_shape l = DeclRefExpr d name en /\ forall ps p, callable root ps -> In p ps -> n_id p <> d.
Proof.
  exists ex_shadow. do 6 eexists. split; [reflexivity|]. split; [reflexivity|]. split; [reflexivity|].
  intros ps p C Hp. inversion C; subst; cbn in H; [|discriminate]. injection H as _ <- _. destruct Hp as [<-|[]]. cbn. discriminate.
Qed.

(** ** C72 *)
Theorem c72_exactly_unsafe_bases : forall n base msg,
  In (base, msg) (BaseClassDestructor_visit n) <->
  exists r ms, n_shape n = CXXRecordDecl r ms /\ cls_defined (r_class r) = true /\ cls_polymorphic (r_class r) = true
    /\ considered_base (r_class r) base /\ unsafe_destructor base
    /\ msg = $"~" ++ cls_name base ++ $"() should be protected or virtual according to class " ++ cls_name (r_class r).
Proof.
  intros n base msg. unfold BaseClassDestructor_visit. split.
  - destruct (n_shape n) eqn:E; try (intros []). destruct (r_class info) as [i name d p x bs] eqn:R.
    destruct d; [|intros []]. destruct p; [|intros []].
    intros H. change (In (base, msg) (base_reports (CxxRecord i name true true x bs) bs)) in H.
    apply base_reports_in in H as (b & Hb & H). apply check_in in H as (A & B & ->).
    do 2 eexists. split; [reflexivity|]. rewrite R. split; [reflexivity|]. split; [reflexivity|]. split; [|auto].
    apply considered_reached. exists b. auto.
  - intros (r & ms & E & D & P & C & U & ->). rewrite E. destruct (r_class r) as [i name d p x bs] eqn:R.
    cbn in D, P. subst d p. change (In (base, baseMessage base (CxxRecord i name true true x bs)) (base_reports (CxxRecord i name true true x bs) bs)).
    apply considered_reached in C as (b & Hb & C). apply base_reports_in. exists b. split; [exact Hb|].
    apply check_in. auto.
Qed.
(** [struct A {}; struct B : A {}; struct C : B { virtual … }]: both bases are reported; below a
    polymorphic base none is. *)
Definition ex_A := CxxRecord 1 $"A" true false None [].
Definition ex_record (c : cxxrecord) : node := nd 1 (CXXRecordDecl {| r_class := c; r_fields := 0; r_methods := 0; r_lines := 1 |} []).
Example c72_case :
  map (fun c => map (fun r => cls_name (fst r)) (BaseClassDestructor_visit (ex_record c)))
   [CxxRecord 3 $"C" true true None [(true, Some (CxxRecord 2 $"B" true false None [(true, Some ex_A)]))];
    CxxRecord 3 $"C" true true None [(true, Some (CxxRecord 2 $"B" true true (Some (true, false)) [(true, Some ex_A)]))];
    CxxRecord 3 $"C" true true None [(false, Some ex_A)]] = [[$"B"; $"A"]; []; []].
Proof. reflexivity. Qed.

(** ** C85 *)
Theorem c85_polymorphic_without_virtual_destructor : forall root,
  reports_exactly (fun n => exists r ms, n_shape n = CXXRecordDecl r ms /\ cls_defined (r_class r) = true
        /\ cls_polymorphic (r_class r) = true
        /\ match r_class r with CxxRecord _ _ _ _ (Some (virtual, _)) _ => virtual = false | _ => True end)
    (fun n => Report n (match n_shape n with
       | CXXRecordDecl r _ => $"class " ++ cls_name (r_class r) ++ $" should have a virtual destructor ~" ++ cls_name (r_class r) ++ $"()"
       | _ => [] end)) root (reports DestructorOfVirtualClass_visit root).
Proof.
  intros root. apply reports_exactly_intro. intros n. unfold DestructorOfVirtualClass_visit.
  destruct (n_shape n) eqn:E; try (right; split; [intros (? & ? & K & _); congruence|reflexivity]).
  destruct (r_class info) as [i name d p x bs] eqn:R.
  destruct d; [|right; split; [intros (r & ms & [= <- <-] & D & _); rewrite R in D; discriminate|reflexivity]].
  destruct p; [|right; split; [intros (r & ms & [= <- <-] & _ & D & _); rewrite R in D; discriminate|reflexivity]].
  destruct x as [[[|] q]|].
  - right. split; [|reflexivity]. intros (r & ms & [= <- <-] & _ & _ & D). rewrite R in D. discriminate.
  - left. split; [|reflexivity]. exists info, members. rewrite R. auto.
  - left. split; [|reflexivity]. exists info, members. rewrite R. auto.
Qed.
Example c85_case : map (fun c => length (reports DestructorOfVirtualClass_visit (ex_record c)))
  [CxxRecord 1 $"A" true true None []; CxxRecord 1 $"A" true true (Some (true, false)) []; CxxRecord 1 $"A" true true (Some (false, true)) [];
   ex_A] = [1; 0; 1; 0].
Proof. reflexivity. Qed.

(** ** C86 *)
(** In each method, the ivar references within the assigned part of an assignment, unless the
    method is the getter or setter of that ivar or an initialiser; assignments in the order of the
    traversal. *)
Theorem c86_assigned_outside_accessors : forall n mi ps b, n_shape n = ObjCMethodDecl mi ps b ->
  exists sel, sublist_where (fun x => ~ accessor_or_init (om_selector mi) (snd x)) (ivars_assigned n) sel
    /\ AssignIvar_visit n = map (fun x => Report (fst x) []) sel.
Proof.
  intros n mi ps b E. unfold AssignIvar_visit. rewrite E.
  assert (A : assignedIvars n = ivars_assigned n).
  { unfold assignedIvars, ivars_assigned. rewrite collect_nodes. apply flat_map_ext. intros x. unfold ivarRefs.
    destruct (n_shape x); auto. destruct op; auto; now rewrite collect_nodes. }
  rewrite A.
  assert (Q : forall name, negb (str_eqb (om_selector mi) (removeUnderscores name))
      && negb (str_eqb (om_selector mi) ($"set" ++ capitalizeFirstLetter (removeUnderscores name) ++ $":"))
      && negb (str_eqb (substr (om_selector mi) 0 4) $"init") = true <-> ~ accessor_or_init (om_selector mi) name).
  { intros name. rewrite !andb_true_iff, !negb_true_iff. unfold accessor_or_init.
    assert (I : str_eqb (substr (om_selector mi) 0 4) $"init" = false <-> ~ exists rest, om_selector mi = $"init" ++ rest).
    { split.
      - intros H (rest & K). rewrite K in H. cbv in H. discriminate.
      - intros H. destruct (str_eqb _ _) eqn:S; auto. exfalso. apply H. apply str_eqb_eq in S.
        exists (skipn 4 (om_selector mi)). rewrite <- S. unfold substr. cbn [Z.to_nat].
        rewrite <- (firstn_skipn 4 (om_selector mi)) at 1. reflexivity. }
    rewrite I. split.
    - intros [[H1 H2] H3] [(g & G & [K|(c & C & K)])|K].
      + apply without_iff in G as ->. rewrite K, str_eqb_refl in H1. discriminate.
      + apply without_iff in G as ->. apply cap_iff in C as ->. rewrite K, str_eqb_refl in H2. discriminate.
      + contradiction.
    - intros H. split; [split|].
      + destruct (str_eqb _ (removeUnderscores name)) eqn:S; auto. exfalso. apply H. apply str_eqb_eq in S. left.
        exists (removeUnderscores name). split; [now apply without_iff|]. left. exact S.
      + destruct (str_eqb _ ($"set" ++ _)) eqn:S; auto. exfalso. apply H. apply str_eqb_eq in S. left.
        exists (removeUnderscores name). split; [now apply without_iff|].
        right. eexists. split; [now apply cap_iff|exact S].
      + intros K. apply H. now right. }
  clear A. induction (ivars_assigned n) as [|[k name] l (sel & S & F)].
  - exists []. split; [constructor|reflexivity].
  - cbn [flat_map fst snd]. specialize (Q name). rewrite F. destruct (_ && _ && _).
    + exists ((k, name) :: sel). split; [constructor; auto; now apply Q|reflexivity].
    + exists sel. split; [constructor; auto|reflexivity]. intros K. apply Q in K. discriminate.
Qed.
Theorem c86_only_methods : forall n, (forall mi ps b, n_shape n <> ObjCMethodDecl mi ps b) -> AssignIvar_visit n = [].
Proof. intros n H. unfold AssignIvar_visit. destruct (n_shape n) eqn:E; auto. exfalso. eapply H; eauto. Qed.
Definition ex_method (sel : str) (body : node) : node :=
  nd 0 (ObjCMethodDecl {| om_selector := sel; om_class := None; om_overriding := false; om_overridden := []; om_bodyLines := 1 |} [] (Some body)).
Definition ex_ivar_assign : node := nd 1 (BinaryOperator BO_Assign (nd 2 (ObjCIvarRefExpr $"_count" None (var 3))) (nd 4 (IntegerLiteral 1))).
Example c86_case : map (fun s => length (AssignIvar_visit (ex_method s ex_ivar_assign)))
  [$"count"; $"setCount:"; $"initWithX:"; $"reset"] = [0; 0; 0; 1].
Proof. reflexivity. Qed.

(** ** C87 *)
Theorem c87_exactly_two_way_ifs : forall root,
  reports_exactly (fun n => exists p c t e, n_shape n = IfStmt p c t (Some e)) (fun n => Report n []) root (reports BranchDivergence_visit root).
Proof.
  intros root. apply reports_exactly_intro. intros n. unfold BranchDivergence_visit.
  destruct (n_shape n) eqn:E; try (right; split; [intros (? & ? & ? & ? & K); congruence|reflexivity]).
  destruct elseS; [left; split; [do 4 eexists; reflexivity|reflexivity]|right; split; [intros (? & ? & ? & ? & K); congruence|reflexivity]].
Qed.
Example c87_case : map (fun r => n_id (rp_node r)) (reports BranchDivergence_visit ex_body) = [2].
Proof. reflexivity. Qed.

Print Assumptions c57_by_first_unterminated_group.
Print Assumptions c57_groups_exist.
Print Assumptions c57_groups_unique.
Print Assumptions c57_all_groups_leave.
Print Assumptions c57_inner_loop_break_refuted.
Print Assumptions c57_no_fall_through_refuted.
Print Assumptions c58_missing_default_exactly.
Print Assumptions c58_unnecessary_default_exactly.
Print Assumptions c58_never_both.
Print Assumptions c58_labels_complete.
Print Assumptions c58_misplaced_default_exactly.
Print Assumptions c58_misplaced_unique.
Print Assumptions c58_default_with_label_refuted.
Print Assumptions c59_fewer_than_limit.
Print Assumptions c59_total.
Print Assumptions c59_nested_cases_refuted.
Print Assumptions c72_exactly_unsafe_bases.
Print Assumptions c80_labels_of_each_switch.
Print Assumptions c80_nested_reported_twice_refuted.
Print Assumptions c81_exactly_negated_two_way.
Print Assumptions c81_swapping_if_preserves.
Print Assumptions c81_swapping_choice_preserves.
Print Assumptions c81_swapping_unequal_preserves.
Print Assumptions c82_exactly_early_exits.
Print Assumptions c82_one_per_construct.
Print Assumptions c82_early_continue_preserves.
Print Assumptions c82_early_jump_preserves.
Print Assumptions c83_exactly_last_in_loop.
Print Assumptions c83_last_continue_is_idle.
Print Assumptions c84_assignments_to_parameter_names.
Print Assumptions c84_shadowing_refuted.
Print Assumptions c85_polymorphic_without_virtual_destructor.
Print Assumptions c86_assigned_outside_accessors.
Print Assumptions c86_only_methods.
Print Assumptions c87_exactly_two_way_ifs.
