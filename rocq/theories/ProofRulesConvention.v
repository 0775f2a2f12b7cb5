(** * Lemmas about the convention rules *)
From Verif Require Import Base BaseFacts ModelAST ModelRules ModelRulesBasic ModelRulesConvention SpecFilter ProofFilter
  SpecAST ProofAST SpecRules ProofRules SpecExec SpecRulesBasic ProofExec ProofRulesBasic SpecRulesConvention.
From Coq Require Import Permutation.
Local Arguments lit : simpl never.

(** ** Missing break *)
Lemma leavesCase_iff n : leavesCase n = true <-> leaving n.
Proof.
  unfold leavesCase. split.
  - destruct (n_shape n) eqn:E; try discriminate; intros _;
      (now apply lv_continue) || (now apply lv_break) || (eapply lv_return; eassumption) || (eapply lv_throw; eassumption)
      || (eapply lv_objc_throw; eassumption).
  - inversion 1; rewrite H0; reflexivity.
Qed.
Lemma findBreak_iff n : findBreak n = true <-> contains_leaving n.
Proof.
  unfold findBreak, contains_leaving. rewrite found_iff. setoid_rewrite leavesCase_iff. reflexivity.
Qed.
Lemma isSwitchCase'_iff n : isSwitchCase n = true <-> case_or_default n.
Proof.
  unfold isSwitchCase, case_or_default. destruct (n_shape n); split; intros H; try discriminate; eauto;
    destruct H as [(? & ? & H)|(? & H)]; discriminate.
Qed.
Lemma isBreakingPoint_iff n : isBreakingPoint n = true <-> leaving n \/ (block_or_cleanup n /\ contains_leaving n).
Proof.
  unfold isBreakingPoint, block_or_cleanup. rewrite orb_true_iff, leavesCase_iff.
  destruct (n_shape n); try (split; [intros [H|H]; [auto|discriminate]|intros [H|[[(? & K)|(? & K)] _]]; [auto|discriminate..]]).
  - rewrite findBreak_iff. split; [intros [H|H]; eauto 6|intros [H|[_ H]]; auto].
  - rewrite findBreak_iff. split; [intros [H|H]; eauto 6|intros [H|[_ H]]; auto].
Qed.
Lemma case_not_breaking n : case_or_default n -> isBreakingPoint n = false.
Proof.
  unfold isBreakingPoint, leavesCase. intros [(v & m & E)|(m & E)]; rewrite E; reflexivity.
Qed.
Lemma not_switchCase n : ~ case_or_default n -> isSwitchCase n = false.
Proof. intros H. destruct (isSwitchCase n) eqn:E; auto. apply isSwitchCase'_iff in E. contradiction. Qed.

Lemma loop_rest l : forall rest b, Forall (fun m => ~ case_or_default m) l ->
  missingBreak_loop (l ++ rest) b = missingBreak_loop rest (b || existsb isBreakingPoint l).
Proof.
  induction l as [|a l IH]; intros rest b H; cbn [app missingBreak_loop existsb].
  - now rewrite orb_false_r.
  - inversion H; subst. rewrite (not_switchCase a) by auto. destruct (isBreakingPoint a).
    + rewrite IH by auto. cbn [orb]. now rewrite orb_true_r.
    + rewrite IH by auto. cbn [orb]. reflexivity.
Qed.
Definition terminatedb (g : group) : bool := findBreak (fst g) || existsb isBreakingPoint (snd g).
Lemma terminatedb_iff g : terminatedb g = true <-> terminated g.
Proof.
  unfold terminatedb, terminated. rewrite orb_true_iff, findBreak_iff, existsb_exists.
  setoid_rewrite isBreakingPoint_iff. reflexivity.
Qed.
Definition flat (gs : list group) : list node := concat (map (fun g => fst g :: snd g) gs).
Lemma loop_groups gs : Forall group_ok gs ->
  (Forall terminated gs /\ missingBreak_loop (flat gs) true = 0)
  \/ exists g1 g g2, gs = g1 ++ g :: g2 /\ Forall terminated g1 /\ ~ terminated g
     /\ missingBreak_loop (flat gs) true = match g2 with [] => 1 | _ => 2 end.
Proof.
  induction gs as [|g gs IH]; intros H.
  - left. split; [constructor|reflexivity].
  - inversion H as [|? ? [H1 H2] H3]; subst.
    change (flat (g :: gs)) with (fst g :: (snd g ++ flat gs)).
    cbn [missingBreak_loop]. rewrite case_not_breaking by auto.
    assert (isSwitchCase (fst g) = true) as -> by now apply isSwitchCase'_iff.
    cbn [negb]. rewrite loop_rest by auto. fold (terminatedb g).
    pose proof (terminatedb_iff g) as T. destruct (terminatedb g).
    + assert (terminated g) by now apply T.
      destruct (IH H3) as [[A B]|(g1 & g' & g2 & -> & A & B & C)].
      * left. split; [constructor; auto|exact B].
      * right. exists (g :: g1), g', g2. split; [reflexivity|]. split; [constructor; auto|]. split; [exact B|]. exact C.
    + assert (~ terminated g) by (intros K; apply T in K; discriminate).
      right. exists [], g, gs. split; [reflexivity|]. split; [constructor|]. split; [auto|].
      destruct gs as [|g' gs']; [reflexivity|].
      inversion H3 as [|? ? [H4 H5] H6]; subst.
      change (flat (g' :: gs')) with (fst g' :: (snd g' ++ flat gs')). cbn [missingBreak_loop].
      rewrite case_not_breaking by auto.
      assert (isSwitchCase (fst g') = true) as -> by now apply isSwitchCase'_iff. reflexivity.
Qed.
Lemma loop_lead lead rest : Forall (fun m => ~ case_or_default m) lead ->
  missingBreak_loop (lead ++ rest) true = missingBreak_loop rest true.
Proof. intros H. now rewrite loop_rest. Qed.
Lemma groups_of l : exists lead gs, grouped l lead gs.
Proof.
  induction l as [|a l (lead & gs & -> & H1 & H2)].
  - exists [], []. repeat split; constructor.
  - destruct (isSwitchCase a) eqn:E.
    + apply isSwitchCase'_iff in E. exists [], ((a, lead) :: gs). repeat split; constructor; auto. now split.
    + exists (a :: lead), gs. split; [reflexivity|]. split; [|exact H2]. constructor; auto.
      intros K. apply isSwitchCase'_iff in K. congruence.
Qed.

(** ** Labels *)
Lemma labels_eq n : ~ is_switch n -> ~ case_or_default n -> labels n = flat_map labels (kids n).
Proof.
  destruct n as [i ty s]. unfold kids, is_switch, case_or_default. cbn [n_shape labels]. intros H1 H2.
  rewrite flat_map_concat_map.
  destruct s; try (rewrite children_map; reflexivity); exfalso.
  - apply H1. eauto.
  - apply H2. eauto.
  - apply H2. eauto.
Qed.
Lemma entered_eq n : ~ is_switch n -> ~ case_or_default n -> enteredLabels n = flat_map enteredLabels (kids n).
Proof.
  destruct n as [i ty s]. unfold kids, is_switch, case_or_default. cbn [n_shape enteredLabels]. intros H1 H2.
  rewrite flat_map_concat_map.
  destruct s; try (rewrite children_map; reflexivity); exfalso.
  - apply H1. eauto.
  - apply H2. eauto.
  - apply H2. eauto.
Qed.
Inductive label_kind (n : node) : Prop :=
| lk_case : forall v m, n_shape n = CaseStmt v m -> labels n = n :: labels v ++ labels m ->
    enteredLabels n = n :: enteredLabels v ++ enteredLabels m -> label_kind n
| lk_default : forall m, n_shape n = DefaultStmt m -> labels n = n :: labels m ->
    enteredLabels n = enteredLabels m ++ [n] -> label_kind n
| lk_switch : forall p c b x, n_shape n = SwitchStmt p c b x -> labels n = flat_map labels (p ++ [c]) ->
    enteredLabels n = flat_map enteredLabels (p ++ [c]) -> label_kind n
| lk_other : ~ is_switch n -> ~ case_or_default n -> labels n = flat_map labels (kids n) ->
    enteredLabels n = flat_map enteredLabels (kids n) -> label_kind n.
Lemma label_cases n : label_kind n.
Proof.
  destruct (n_shape n) eqn:E;
    try (apply lk_other;
      [intros (? & ? & ? & ? & K); congruence|intros [(? & ? & K)|(? & K)]; congruence
      |apply labels_eq; [intros (? & ? & ? & ? & K); congruence|intros [(? & ? & K)|(? & K)]; congruence]
      |apply entered_eq; [intros (? & ? & ? & ? & K); congruence|intros [(? & ? & K)|(? & K)]; congruence]]).
  - eapply lk_switch; [exact E| |];
      destruct n as [i ty s]; cbn [n_shape] in E; subst s; cbn [labels enteredLabels];
      rewrite flat_map_app, flat_map_concat_map; cbn [flat_map]; now rewrite app_nil_r.
  - eapply lk_case; [exact E| |]; destruct n as [i ty s]; cbn [n_shape] in E; subst s; reflexivity.
  - eapply lk_default; [exact E| |]; destruct n as [i ty s]; cbn [n_shape] in E; subst s; reflexivity.
Qed.
Lemma perm_flat_map {A B} (f g : A -> list B) l : (forall x, In x l -> Permutation (f x) (g x)) ->
  Permutation (flat_map f l) (flat_map g l).
Proof.
  induction l as [|a l IH]; intros H; [constructor|]. cbn [flat_map]. apply Permutation_app.
  - apply H. simpl; auto.
  - apply IH. intros. apply H. simpl; auto.
Qed.
Lemma entered_perm n : Permutation (enteredLabels n) (labels n).
Proof.
  induction n as [n IH] using node_ind'.
  destruct (label_cases n) as [v m E L N|m E L N|p c b x E L N|S C L N]; rewrite L, N.
  - constructor. apply Permutation_app; apply IH; unfold kids; rewrite E; simpl; auto.
  - etransitivity; [apply Permutation_app_comm|]. cbn [app]. constructor. apply IH. unfold kids. rewrite E. simpl; auto.
  - apply perm_flat_map. intros k Hk. apply IH. unfold kids. rewrite E. cbn [children].
    apply in_app_or in Hk as [Hk|[<-|[]]]; apply in_or_app; simpl; auto.
  - apply perm_flat_map. auto.
Qed.
Lemma in_labels n d : In d (labels n) <-> own_label n d.
Proof.
  split.
  - revert d. induction n as [n IH] using node_ind'. intros d.
    destruct (label_cases n) as [v m E L N|m E L N|p c b x E L N|S C L N]; rewrite L.
    + intros [<-|H]; [apply own_here; left; eauto|].
      apply in_app_or in H as [H|H]; [eapply own_sub with (c := v)|eapply own_sub with (c := m)];
        try (intros (? & ? & ? & ? & K); congruence); try apply IH; auto; unfold kids; rewrite E; simpl; auto.
    + intros [<-|H]; [apply own_here; right; eauto|]. eapply own_sub with (c := m);
        try (intros (? & ? & ? & ? & K); congruence); try apply IH; auto; unfold kids; rewrite E; simpl; auto.
    + intros H. apply in_flat_map in H as (k & Hk & H). eapply own_head; eauto. apply IH; auto.
      unfold kids. rewrite E. cbn [children].
      apply in_app_or in Hk as [Hk|[<-|[]]]; apply in_or_app; simpl; auto.
    + intros H. apply in_flat_map in H as (k & Hk & H). eapply own_sub; eauto.
  - induction 1 as [n H|n c d S Hc _ IH|n p c b x k d E Hk _ IH].
    + destruct (label_cases n) as [v m E L N|m E L N|p c b x E L N|S C L N]; rewrite L; try (simpl; auto; fail).
      * destruct H as [(? & ? & K)|(? & K)]; congruence.
      * contradiction.
    + destruct (label_cases n) as [v m E L N|m E L N|p c' b x E L N|S' C L N]; rewrite L.
      * unfold kids in Hc. rewrite E in Hc. right. apply in_or_app.
        destruct Hc as [->|[->|[]]]; auto.
      * unfold kids in Hc. rewrite E in Hc. right. destruct Hc as [->|[]]; auto.
      * exfalso. apply S. do 4 eexists; eauto.
      * apply in_flat_map. eauto.
    + destruct (label_cases n) as [v m E' L N|m E' L N|p' c' b' x' E' L N|S' C L N]; try congruence.
      * assert (p' = p) as -> by congruence. assert (c' = c) as -> by congruence. rewrite L. apply in_flat_map. eauto.
      * exfalso. apply S'. do 4 eexists; eauto.
Qed.
Lemma switch_list b d : In d (getSwitchCaseList b) <-> own_label b d.
Proof.
  unfold getSwitchCaseList. rewrite <- in_rev, <- in_labels.
  split; apply Permutation_in; [apply entered_perm|symmetry; apply entered_perm].
Qed.
Lemma own_label_is n d : own_label n d -> case_or_default d.
Proof. induction 1; auto. Qed.
Lemma isDefault_iff n : isDefaultStmt n = true <-> is_default n.
Proof. unfold isDefaultStmt, is_default. destruct (n_shape n); split; intros H; eauto; try discriminate; destruct H; discriminate. Qed.
Lemma isCase_iff n : isCaseStmt n = true <-> is_case n.
Proof. unfold isCaseStmt, is_case. destruct (n_shape n); split; intros H; eauto; try discriminate; destruct H as (? & ? & ?); discriminate. Qed.
Lemma case_not_default n : is_case n -> ~ is_default n.
Proof. intros (? & ? & E) (? & K). congruence. Qed.
Lemma has_default b : existsb isDefaultStmt (getSwitchCaseList b) = true <-> exists d, own_label b d /\ is_default d.
Proof. rewrite existsb_exists. setoid_rewrite switch_list. setoid_rewrite isDefault_iff. reflexivity. Qed.

Lemma entered_source n : default_bears_no_label n -> enteredLabels n = labels n.
Proof.
  induction n as [n IH] using node_ind'. intros H.
  destruct (label_cases n) as [v m E L N|m E L N|p c b x E L N|S C L N]; rewrite L, N.
  - f_equal. f_equal; apply IH; try (unfold kids; rewrite E; simpl; auto; fail);
      intros d m' O; apply H; eapply own_sub; eauto; try (intros (? & ? & ? & ? & K); congruence);
      unfold kids; rewrite E; simpl; auto.
  - assert (Z : labels m = []).
    { eapply H; [|exact E]. apply own_here. right. eauto. }
    rewrite Z. pose proof (entered_perm m) as P. rewrite Z in P. apply Permutation_sym, Permutation_nil in P. now rewrite P.
  - assert (Q : forall k, In k (p ++ [c]) -> enteredLabels k = labels k).
    { intros k Hk. apply IH.
      - unfold kids. rewrite E. cbn [children]. apply in_app_or in Hk as [Hk|[<-|[]]]; apply in_or_app; simpl; auto.
      - intros d m' O. apply H. eapply own_head; eauto. }
    rewrite !flat_map_concat_map. f_equal. now apply map_ext_in.
  - rewrite !flat_map_concat_map. f_equal. apply map_ext_in. intros k Hk. apply IH; auto.
    intros d m' O. apply H. eapply own_sub; eauto.
Qed.

(** The loop over the reversed list: reports the default that is followed by cases only. *)
Lemma misplaced_spec l : Forall case_or_default l ->
  match misplacedDefault_loop (rev l) with
  | [] => ~ exists before d after, l = before ++ d :: after /\ is_default d /\ after <> [] /\ Forall is_case after
  | [r] => exists before d after, l = before ++ d :: after /\ is_default d /\ after <> [] /\ Forall is_case after
             /\ r = Report d []
  | _ => False
  end.
Proof.
  intros Hl.
  (* strip the trailing cases *)
  assert (S : exists pre post, l = pre ++ post /\ Forall is_case post
              /\ (pre = [] \/ exists p d, pre = p ++ [d] /\ is_default d)).
  { clear - Hl. induction l as [|x l IH] using rev_ind.
    - exists [], []. repeat split; auto.
    - apply Forall_app in Hl as [Hl Hx]. inversion Hx as [|? ? Hx' _]; subst.
      destruct Hx' as [Hx'|Hx'].
      + destruct (IH Hl) as (pre & post & -> & P & Q). exists pre, (post ++ [x]). rewrite app_assoc. repeat split; auto.
        apply Forall_app. split; auto.
      + exists (l ++ [x]), []. rewrite app_nil_r. split; [reflexivity|]. split; [constructor|]. right. eauto. }
  destruct S as (pre & post & -> & P & Q).
  assert (U : forall before d after, pre ++ post = before ++ d :: after -> is_default d -> Forall is_case after ->
     pre = before ++ [d] /\ post = after).
  { intros before d after E D A.
    destruct Q as [->|(p & d' & -> & D')].
    - cbn [app] in E. subst post. apply Forall_app in P as [_ P]. inversion P; subst.
      exfalso. eapply case_not_default; eauto.
    - clear - E D A P D'. revert post P E. induction after as [|y after IH] using rev_ind; intros post P E.
      + destruct post as [|z post _] using rev_ind.
        * rewrite app_nil_r in E. apply app_inj_tail in E as [-> ->]. auto.
        * rewrite app_assoc in E. apply app_inj_tail in E as [_ ->].
          apply Forall_app in P as [_ P]. inversion P; subst. exfalso. eapply case_not_default; eauto.
      + apply Forall_app in A as [A A2]. inversion A2; subst.
        destruct post as [|z post _] using rev_ind.
        * rewrite app_nil_r, app_comm_cons, app_assoc in E. apply app_inj_tail in E as [_ ->].
          exfalso. eapply case_not_default; eauto.
        * rewrite app_comm_cons in E. rewrite !app_assoc in E. apply app_inj_tail in E as [E ->].
          apply Forall_app in P as [P _]. destruct (IH A post P E) as [-> ->]. auto. }
  assert (C : forall q rest, Forall is_case q -> misplacedDefault_loop (q ++ rest) =
     match q, rest with _ :: _, d :: _ => if isDefaultStmt d then [plainReport d] else [] | _, _ => [] end
     ++ misplacedDefault_loop rest).
  { clear. induction q as [|a q IH]; intros rest H; [reflexivity|]. inversion H; subst. cbn [app misplacedDefault_loop].
    assert (isCaseStmt a = true) as -> by now apply isCase_iff.
    rewrite IH by auto. destruct q as [|b q]; cbn [app].
    - destruct rest; reflexivity.
    - inversion H3; subst. assert (isDefaultStmt b = false) as ->.
      { destruct (isDefaultStmt b) eqn:E; auto. apply isDefault_iff in E. exfalso. eapply case_not_default; eauto. }
      reflexivity. }
  rewrite rev_app_distr, C by now apply Forall_rev.
  destruct Q as [->|(p & d & -> & D)].
  - cbn [rev misplacedDefault_loop]. rewrite app_nil_r.
    assert (N : ~ exists before d after, [] ++ post = before ++ d :: after /\ is_default d /\ after <> [] /\ Forall is_case after).
    { intros (before & d & after & E & D & _ & A). destruct (U _ _ _ E D A) as [K _]. destruct before; discriminate. }
    destruct (rev post); exact N.
  - rewrite rev_app_distr. cbn [rev app misplacedDefault_loop].
    assert (isCaseStmt d = false) as ->.
    { destruct (isCaseStmt d) eqn:E; auto. apply isCase_iff in E. exfalso. eapply case_not_default; eauto. }
    rewrite app_nil_r. assert (isDefaultStmt d = true) as -> by now apply isDefault_iff.
    destruct (rev post) as [|z zs] eqn:Z.
    + intros (before & d' & after & E & D' & A' & A). destruct (U _ _ _ E D' A) as [_ <-].
      apply A'. rewrite <- (rev_involutive post), Z. reflexivity.
    + exists p, d, post. split; [now rewrite <- app_assoc|]. split; auto. split; [|split; [auto|reflexivity]].
      intros ->. discriminate.
Qed.
Lemma default_before_case_det sw d d' : default_before_case sw d -> default_before_case sw d' -> d = d'.
Proof.
  intros (p & c & b & x & bf & af & E & L & D & A & F) (p' & c' & b' & x' & bf' & af' & E' & L' & D' & A' & F').
  assert (b' = b) as -> by congruence. rewrite L in L'. clear - L' D D' F F'.
  revert af' F' L'. induction af as [|y af IH] using rev_ind; intros af' F' L'.
  - destruct af' as [|z af' _] using rev_ind.
    + now apply app_inj_tail in L' as [_ ->].
    + rewrite app_comm_cons, app_assoc in L'. apply app_inj_tail in L' as [_ ->].
      apply Forall_app in F' as [_ F']. inversion F'; subst. exfalso. eapply case_not_default; eauto.
  - apply Forall_app in F as [F F2]. inversion F2; subst.
    destruct af' as [|z af' _] using rev_ind.
    + rewrite app_comm_cons, app_assoc in L'. apply app_inj_tail in L' as [_ ->].
      exfalso. eapply case_not_default; eauto.
    + rewrite !app_comm_cons, !app_assoc in L'. apply app_inj_tail in L' as [L' _].
      apply Forall_app in F' as [F' _]. eauto.
Qed.
Lemma labels_are b : Forall case_or_default (labels b).
Proof. apply Forall_forall. intros d H. apply in_labels in H. eapply own_label_is; eauto. Qed.

Lemma misplaced_node n : (forall p c b x, n_shape n = SwitchStmt p c b x -> default_bears_no_label b) ->
  (exists d, default_before_case n d /\ MisplacedDefault_visit n = [Report d []])
  \/ ((forall d, ~ default_before_case n d) /\ MisplacedDefault_visit n = []).
Proof.
  intros H. unfold MisplacedDefault_visit. destruct (n_shape n) eqn:E;
    try (right; split; [intros d (? & ? & ? & ? & ? & ? & K & _); congruence|reflexivity]).
  specialize (H _ _ _ _ eq_refl). unfold getSwitchCaseList. rewrite entered_source by auto.
  pose proof (misplaced_spec _ (labels_are body)) as M.
  destruct (misplacedDefault_loop (rev (labels body))) as [|r [|r' rs]]; [right|left|contradiction].
  - split; auto. intros d (p & c & b & x & bf & af & K & L & D & A & F). apply M.
    exists bf, d, af. rewrite <- L. split; [congruence|]. auto.
  - destruct M as (bf & d & af & L & D & A & F & ->). exists d. split; auto.
    do 6 eexists. split; [exact E|]. split; [exact L|]. auto.
Qed.

(** ** Others *)
Lemma inverted_iff c : isInvertedLogic c = true <-> negated c.
Proof.
  unfold isInvertedLogic, negated. destruct (n_shape c);
    try (split; [discriminate|intros [(? & ? & K)|(? & K)]; discriminate]).
  - destruct op; try (split; [discriminate|intros [(? & ? & K)|(? & K)]; discriminate]).
    split; [intros _; left; eauto|auto].
  - destruct op; try (split; [discriminate|intros [(? & ? & K)|(? & K)]; discriminate]).
    split; [intros _; right; eauto|auto].
Qed.
Lemma inverted_node n :
  (exists c, (two_way n c /\ negated c) /\ InvertedLogic_visit n = [Report c []])
  \/ ((forall c, ~ (two_way n c /\ negated c)) /\ InvertedLogic_visit n = []).
Proof.
  unfold InvertedLogic_visit.
  destruct (n_shape n) eqn:E; try (right; split; [intros c [K _]; inversion K; congruence|reflexivity]).
  - destruct elseS as [e|]; [|right; split; [intros c [K _]; inversion K; congruence|reflexivity]].
    pose proof (inverted_iff cond) as I. destruct (isInvertedLogic cond).
    + left. exists cond. split; [split; [eapply tw_if; eauto|now apply I]|reflexivity].
    + right. split; [|reflexivity]. intros c [K N].
      assert (c = cond) as -> by (inversion K; congruence). apply I in N. discriminate.
  - pose proof (inverted_iff cond) as I. destruct (isInvertedLogic cond).
    + left. exists cond. split; [split; [eapply tw_choice; eauto|now apply I]|reflexivity].
    + right. split; [|reflexivity]. intros c [K N].
      assert (c = cond) as -> by (inversion K; congruence). apply I in N. discriminate.
Qed.

Lemma back_snoc l m : body_back (l ++ [m]) = Some m.
Proof. induction l as [|a l IH]; [reflexivity|]. cbn [app body_back]. destruct (l ++ [m]) eqn:E; [destruct l; discriminate|]. exact IH. Qed.
Lemma back_some l m : body_back l = Some m <-> exists l', l = l' ++ [m].
Proof.
  split.
  - destruct l as [|x l _] using rev_ind; [discriminate|]. rewrite back_snoc. intros [= <-]. eauto.
  - intros (l' & ->). apply back_snoc.
Qed.
Lemma back_none l : body_back l = None <-> l = [].
Proof. split; [|now intros ->]. destruct l as [|x l _] using rev_ind; auto. rewrite back_snoc. discriminate. Qed.
Lemma interrupt_iff n : isFlowOfControlInterrupt n = true <-> interrupts n.
Proof.
  unfold isFlowOfControlInterrupt. split.
  - destruct (n_shape n) eqn:E; try discriminate; intros _;
      (now apply ir_continue) || (now apply ir_break) || (eapply ir_return; eassumption) || (eapply ir_goto; eassumption)
      || (eapply ir_computed; eassumption).
  - inversion 1; rewrite H0; reflexivity.
Qed.
Lemma longIf_iff lines T s : isLongIfWithoutElse lines T (Some s) = true
  <-> (exists p c t, n_shape s = IfStmt p c t None) /\ (T < lines s)%Z.
Proof.
  unfold isLongIfWithoutElse. destruct (n_shape s);
    try (split; [discriminate|intros [(? & ? & ? & K) _]; discriminate]).
  destruct elseS; [split; [discriminate|intros [(? & ? & ? & K) _]; discriminate]|].
  rewrite Z.gtb_lt. split; [intros H; split; [eauto|exact H]|intros [_ H]; exact H].
Qed.
Lemma last_some b m : getLastStatement b = Some m <->
  (exists l, n_shape b = CompoundStmt (l ++ [m])) \/ (b = m /\ forall l, n_shape b <> CompoundStmt l).
Proof.
  unfold getLastStatement. destruct (n_shape b) eqn:E;
    try (split; [intros [= ->]; right; split; [auto|congruence]|intros [(l & K)|[-> _]]; [discriminate|reflexivity]]).
  rewrite back_some. split.
  - intros (l' & ->). eauto.
  - intros [(l' & [= ->])|[_ K]]; [eauto|exfalso; eapply K; reflexivity].
Qed.
Lemma early_loop lines T n b : plain_loop n b ->
  PreferEarlyExit_visit lines T n = addViolationIfStmtIsLongIf lines T (getLastStatement b).
Proof. unfold PreferEarlyExit_visit. inversion 1; subst; rewrite H0; reflexivity. Qed.
Lemma plain_loop_det n a b : plain_loop n a -> plain_loop n b -> a = b.
Proof. inversion 1; inversion 1; congruence. Qed.
Lemma early_node lines T n :
  (exists m, could_exit_early lines T n m /\ PreferEarlyExit_visit lines T n = [Report m earlyExitMessage])
  \/ ((forall m, ~ could_exit_early lines T n m) /\ PreferEarlyExit_visit lines T n = []).
Proof.
  assert (P : forall b, plain_loop n b ->
    (exists m, could_exit_early lines T n m /\ PreferEarlyExit_visit lines T n = [Report m earlyExitMessage])
    \/ ((forall m, ~ could_exit_early lines T n m) /\ PreferEarlyExit_visit lines T n = [])).
  { intros b Hb. rewrite (early_loop _ _ _ _ Hb).
    assert (NC : forall l, n_shape n <> CompoundStmt l) by (inversion Hb; congruence).
    destruct (getLastStatement b) as [s|] eqn:L.
    - unfold addViolationIfStmtIsLongIf. pose proof (longIf_iff lines T s) as I.
      destruct (isLongIfWithoutElse lines T (Some s)).
      + left. exists s. split; [|reflexivity]. destruct (proj1 I eq_refl) as [A B]. split; [exact A|]. split; [exact B|].
        left. exists b. split; [exact Hb|]. now apply last_some.
      + right. split; [|reflexivity]. intros m (A & B & [(b' & Hb' & K)|(l & j & K & _)]); [|eapply NC; eauto].
        assert (b' = b) as -> by (eapply plain_loop_det; eauto). apply last_some in K.
        assert (m = s) as -> by congruence. assert (false = true) by (apply I; auto). discriminate.
    - right. split; [|reflexivity]. intros m (A & B & [(b' & Hb' & K)|(l & j & K & _)]); [|eapply NC; eauto].
      assert (b' = b) as -> by (eapply plain_loop_det; eauto). apply last_some in K. congruence. }
  assert (Q : (forall b, ~ plain_loop n b) -> (forall l, n_shape n <> CompoundStmt l) ->
     PreferEarlyExit_visit lines T n = [] ->
    (exists m, could_exit_early lines T n m /\ PreferEarlyExit_visit lines T n = [Report m earlyExitMessage])
    \/ ((forall m, ~ could_exit_early lines T n m) /\ PreferEarlyExit_visit lines T n = [])).
  { intros H1 H2 H3. right. split; [|exact H3]. intros m (_ & _ & [(b & K & _)|(l & j & K & _)]); [eapply H1|eapply H2]; eauto. }
  destruct (n_shape n) eqn:E;
    try (apply Q; [intros b K; inversion K; congruence|discriminate|unfold PreferEarlyExit_visit; now rewrite E]; fail);
    try (eapply P; econstructor; exact E).
  clear P Q. assert (NL : forall b, ~ plain_loop n b) by (intros b K; inversion K; congruence).
  unfold PreferEarlyExit_visit. rewrite E.
  destruct (rev body) as [|last [|s rest]] eqn:R.
  - right. split; [|reflexivity]. intros m (_ & _ & [(b & K & _)|(l & j & K & _)]); [eapply NL; eauto|].
    assert (body = l ++ [m; j]) by congruence. subst body. rewrite rev_app_distr in R. discriminate.
  - right. split; [|reflexivity]. intros m (_ & _ & [(b & K & _)|(l & j & K & _)]); [eapply NL; eauto|].
    assert (body = l ++ [m; j]) by congruence. subst body. rewrite rev_app_distr in R. discriminate.
  - assert (B : body = rev rest ++ [s; last]).
    { rewrite <- (rev_involutive body), R. cbn [rev]. now rewrite <- app_assoc. }
    assert (U : forall l m j, n_shape n = CompoundStmt (l ++ [m; j]) -> m = s /\ j = last).
    { intros l m j K. rewrite E in K. injection K as K. rewrite K, rev_app_distr in R. cbn [rev app] in R. split; congruence. }
    pose proof (interrupt_iff last) as J. destruct (isFlowOfControlInterrupt last).
    + unfold addViolationIfStmtIsLongIf. pose proof (longIf_iff lines T s) as I.
      destruct (isLongIfWithoutElse lines T (Some s)).
      * left. exists s. split; [|reflexivity]. destruct (proj1 I eq_refl) as [A1 A2]. split; [exact A1|]. split; [exact A2|].
        right. exists (rev rest), last. split; [now rewrite E, B|]. now apply J.
      * right. split; [|reflexivity]. intros m (A1 & A2 & [(b & K & _)|(l & j & K & _)]); [eapply NL; eauto|].
        destruct (U _ _ _ K) as [-> ->]. assert (false = true) by (apply I; auto). discriminate.
    + right. split; [|reflexivity]. intros m (A1 & A2 & [(b & K & _)|(l & j & K & K2)]); [eapply NL; eauto|].
      destruct (U _ _ _ K) as [-> ->]. apply J in K2. discriminate.
Qed.
Lemma could_exit_det lines T n a b : could_exit_early lines T n a -> could_exit_early lines T n b -> a = b.
Proof.
  intros (_ & _ & [(x & Hx & A)|(l & j & A & _)]) (_ & _ & [(y & Hy & B)|(l' & j' & B & _)]).
  - assert (y = x) as -> by (eapply plain_loop_det; eauto). apply last_some in A, B. congruence.
  - inversion Hx; congruence.
  - inversion Hy; congruence.
  - rewrite A in B. injection B as B. change [a; j] with ([a] ++ [j]) in B. change [b; j'] with ([b] ++ [j']) in B.
    rewrite !app_assoc in B. apply app_inj_tail in B as [B _]. now apply app_inj_tail in B as [_ B].
Qed.
(** With a message, as reports_related_intro. *)
Lemma reports_exactly_related (R : node -> node -> Prop) msg f root :
  (forall n, (exists m, R n m /\ f n = [Report m msg]) \/ ((forall m, ~ R n m) /\ f n = [])) ->
  exists sel, sublist_where (fun n => exists m, R n m) (nodes root) sel
    /\ Forall2 (fun n r => R n (rp_node r) /\ rp_message r = msg) sel (reports f root).
Proof.
  intros H. rewrite reports_nodes. induction (nodes root) as [|a l IH].
  - exists []. split; constructor.
  - destruct IH as (sel & S & F). cbn [flat_map]. destruct (H a) as [(m & Hm & E)|[N E]]; rewrite E.
    + exists (a :: sel). split; [constructor; eauto|]. constructor; auto.
    + exists sel. split; [constructor; auto|exact F]. intros (m & K). eapply N; eauto.
Qed.

Lemma branching_iff n : isBranchingStatement n = true <-> branching n.
Proof.
  unfold isBranchingStatement, branching. destruct (n_shape n); split; intros H; eauto; try discriminate;
    destruct H as [H|[H|(? & H)]]; discriminate.
Qed.
Lemma loop_with_body_det n a b : loop_with_body n a -> loop_with_body n b -> a = b.
Proof. inversion 1; subst; inversion 1; subst; try solve [eapply plain_loop_det; eauto]; try congruence;
  match goal with K : plain_loop _ _ |- _ => inversion K; congruence end. Qed.
Lemma branching_node n :
  (exists m, ((exists b l, loop_with_body n b /\ n_shape b = CompoundStmt (l ++ [m])) /\ branching m)
     /\ AvoidBranching_visit n = [Report m []])
  \/ ((forall m, ~ ((exists b l, loop_with_body n b /\ n_shape b = CompoundStmt (l ++ [m])) /\ branching m))
      /\ AvoidBranching_visit n = []).
Proof.
  assert (P : forall b, loop_with_body n b -> AvoidBranching_visit n = applyLoopBody b ->
    (exists m, ((exists b l, loop_with_body n b /\ n_shape b = CompoundStmt (l ++ [m])) /\ branching m)
     /\ AvoidBranching_visit n = [Report m []])
    \/ ((forall m, ~ ((exists b l, loop_with_body n b /\ n_shape b = CompoundStmt (l ++ [m])) /\ branching m))
      /\ AvoidBranching_visit n = [])).
  { intros b Hb ->. unfold applyLoopBody.
    destruct (n_shape b) eqn:F;
      try (right; split; [intros m [(b' & l & K1 & K2) _]; assert (b' = b) as -> by (eapply loop_with_body_det; eauto); congruence|reflexivity]).
    destruct (body_back body) as [s|] eqn:L.
    - pose proof (branching_iff s) as I. apply back_some in L as (l' & ->). destruct (isBranchingStatement s).
      + left. exists s. split; [|reflexivity]. split; [eauto|now apply I].
      + right. split; [|reflexivity]. intros m [(b' & l & K1 & K2) K3].
        assert (b' = b) as -> by (eapply loop_with_body_det; eauto). rewrite F in K2. injection K2 as K2.
        apply app_inj_tail in K2 as [_ ->]. apply I in K3. discriminate.
    - apply back_none in L as ->. right. split; [|reflexivity]. intros m [(b' & l & K1 & K2) K3].
      assert (b' = b) as -> by (eapply loop_with_body_det; eauto). rewrite F in K2. injection K2 as K2. destruct l; discriminate. }
  destruct (n_shape n) eqn:E;
    try (right; split; [intros m [(b & l & K & _) _]; inversion K as [? ? K'|]; subst; [inversion K'; congruence|congruence]
       |unfold AvoidBranching_visit; now rewrite E]; fail);
    (eapply P; [|unfold AvoidBranching_visit; rewrite E; reflexivity]);
    try (apply lb_plain; econstructor; exact E; fail); eapply lb_forin; exact E.
Qed.

Lemma param_names ps name : In name (paramNames ps) <->
  name <> [] /\ exists p vi ini, In p ps /\ n_shape p = VarDecl vi ini /\ v_name vi = name.
Proof.
  unfold paramNames. rewrite filter_In, in_map_iff. split.
  - intros [(p & E & Hp) N]. split; [intros ->; discriminate|]. unfold paramName in E.
    destruct (n_shape p) eqn:F; try (subst name; discriminate). eauto 6.
  - intros [N (p & vi & ini & Hp & F & E)]. split.
    + exists p. split; [|exact Hp]. unfold paramName. now rewrite F.
    + destruct name; [congruence|reflexivity].
Qed.
Lemma assigns_iff ps n : assignsName (paramNames ps) n = true <-> assigns_parameter_name ps n.
Proof.
  unfold assignsName, assigns_parameter_name. split.
  - destruct (n_shape n) eqn:E; try discriminate. destruct op; try discriminate. destruct (n_shape lhs) eqn:F; try discriminate.
    intros H. apply existsb_exists in H as (x & Hx & Hn). apply str_eqb_eq in Hn. subst x.
    apply param_names in Hx as [N P]. do 5 eexists. split; [reflexivity|]. split; [exact F|]. auto.
  - intros (l & r & d & name & en & E & F & N & P). rewrite E, F. apply existsb_exists. exists name.
    split; [|apply str_eqb_refl]. now apply param_names.
Qed.
Lemma reassignment_of n ps : callable n ps ->
  exists sel, sublist_where (assigns_parameter_name ps) (nodes n) sel
    /\ ParameterReassignment_visit n = map (fun m => Report m []) sel.
Proof.
  intros C. set (f := fun m => if assignsName (paramNames ps) m then [m] else []).
  assert (S : sublist_where (assigns_parameter_name ps) (nodes n) (collect f n)).
  { apply collect_where. intros m. unfold f. pose proof (assigns_iff ps m) as I. destruct (assignsName (paramNames ps) m).
    - left. split; [now apply I|reflexivity].
    - right. split; [|reflexivity]. intros K. apply I in K. discriminate. }
  exists (collect f n). split; [exact S|].
  assert (Z : ParameterReassignment_visit n = if is_nil (paramNames ps) then [] else map plainReport (collect f n)).
  { unfold ParameterReassignment_visit. inversion C; subst; rewrite H; reflexivity. }
  rewrite Z. destruct (paramNames ps) eqn:P; [|reflexivity].
  cbn [is_nil]. unfold f. rewrite collect_nodes. symmetry. clear.
  induction (nodes n) as [|a l IH]; [reflexivity|]. cbn [flat_map]. unfold assignsName at 1.
  destruct (n_shape a); try exact IH. destruct op; try exact IH. destruct (n_shape lhs); exact IH.
Qed.
Lemma reassignment_other n : (forall ps, ~ callable n ps) -> ParameterReassignment_visit n = [].
Proof.
  intros H. unfold ParameterReassignment_visit. destruct (n_shape n) eqn:E; try reflexivity; exfalso.
  - eapply H. eapply ca_function; eauto.
  - eapply H. eapply ca_method; eauto.
Qed.

(** Classes *)
Lemma cxxrecord_ind' (P : cxxrecord -> Prop) :
  (forall i n d p x bs, (forall a c, In (a, Some c) bs -> P c) -> P (CxxRecord i n d p x bs)) -> forall c, P c.
Proof.
  intros H. fix IH 1. intros [i n d p x bs]. apply H.
  revert bs. fix go 1. intros [|[a o] l] a' c.
  - intros [].
  - intros [K|K]; [|exact (go l a' c K)]. destruct o as [c'|]; [|discriminate K].
    assert (c' = c) as <- by congruence. apply IH.
Qed.
Lemma destructor_iff c : hasVirtualOrProtectedDestructor c = false <-> unsafe_destructor c.
Proof.
  destruct c as [i n d p [[v q]|] bs]; cbn.
  - rewrite orb_false_iff. reflexivity.
  - split; auto.
Qed.
Definition base_reports (child : cxxrecord) (bs : list (bool * option cxxrecord)) : list (cxxrecord * str) :=
  flat_map (fun b => match b with (true, Some c) => checkBase child c | _ => [] end) bs.
Lemma base_reports_in child bs r : In r (base_reports child bs) <-> exists c, In (true, Some c) bs /\ In r (checkBase child c).
Proof.
  unfold base_reports. rewrite in_flat_map. split.
  - intros ([[|] [c|]] & Hb & H); try contradiction. eauto.
  - intros (c & Hc & H). exists (true, Some c). auto.
Qed.
Lemma check_eq child i n d p x bs : checkBase child (CxxRecord i n d p x bs) =
  if negb d then []
  else (if hasVirtualOrProtectedDestructor (CxxRecord i n d p x bs) then []
        else [(CxxRecord i n d p x bs, baseMessage (CxxRecord i n d p x bs) child)])
       ++ if p then [] else base_reports child bs.
Proof. reflexivity. Qed.
(** bases reached from [b] including itself *)
Inductive reached : cxxrecord -> cxxrecord -> Prop :=
| re_here : forall b, cls_defined b = true -> reached b b
| re_next : forall b d e, cls_defined b = true -> cls_polymorphic b = false -> cls_public_base b d -> reached d e -> reached b e.
Lemma reached_snoc b d e : reached b d -> cls_polymorphic d = false -> cls_public_base d e -> cls_defined e = true -> reached b e.
Proof. induction 1; intros; [eapply re_next; eauto; now constructor|eapply re_next; eauto]. Qed.
Lemma considered_reached c e : considered_base c e <-> exists b, cls_public_base c b /\ reached b e.
Proof.
  split.
  - induction 1 as [c b H D|c b d _ (b0 & H & R) P Q D]; [exists b; split; [exact H|now constructor]|].
    exists b0. split; [exact H|]. eapply reached_snoc; eauto.
  - intros (b & H & R). revert c H.
    assert (K : forall c, considered_base c b \/ (cls_public_base c b) -> considered_base c e).
    { induction R as [b D|b d e D P Q R IH]; intros c [H|H]; auto.
      - now apply cb_direct.
      - apply IH. left. eapply cb_through; eauto. inversion R; auto.
      - apply IH. left. eapply cb_through; eauto; [now apply cb_direct|]. inversion R; auto. }
    intros c H. apply K. auto.
Qed.
Lemma check_in child c e msg : In (e, msg) (checkBase child c) <->
  reached c e /\ unsafe_destructor e /\ msg = baseMessage e child.
Proof.
  induction c as [i n d p x bs IH] using cxxrecord_ind'. rewrite check_eq.
  set (this := CxxRecord i n d p x bs) in *. destruct d; cbn [negb].
  - rewrite in_app_iff. split.
    + intros [H|H].
      * destruct (hasVirtualOrProtectedDestructor this) eqn:V; [destruct H|]. destruct H as [[= <- <-]|[]].
        split; [now constructor|]. split; [now apply destructor_iff|reflexivity].
      * destruct p; [destruct H|]. apply base_reports_in in H as (c & Hc & H). apply (IH _ _ Hc) in H as (A & B & C).
        split; [|auto]. apply re_next with c; auto.
    + intros (R & U & ->). inversion R; subst.
      * left. apply destructor_iff in U. rewrite U. simpl; auto.
      * right. cbn in H0. subst p. apply base_reports_in. cbn in H1. exists d. split; [exact H1|].
        apply (IH _ _ H1). auto.
  - split; [intros []|]. intros (R & _). inversion R; subst; discriminate.
Qed.

Lemma without_iff a b : without_underscores a b <-> b = removeUnderscores a.
Proof.
  assert (K : without_underscores a (removeUnderscores a)).
  { unfold without_underscores, removeUnderscores. induction a as [|c a IH]; [constructor|]. cbn [filter].
    destruct (ascii_eqb c "_"%char) eqn:E; cbn [negb].
    - apply ascii_eqb_eq in E. subst. now constructor.
    - constructor; auto. intros ->. rewrite ascii_eqb_refl in E. discriminate. }
  split; [|now intros ->]. intros H. eapply sublist_where_det; eauto.
Qed.
Lemma cap_iff a b : capitalised a b <-> b = capitalizeFirstLetter a.
Proof. split; [inversion 1; reflexivity|intros ->; destruct a; constructor]. Qed.
