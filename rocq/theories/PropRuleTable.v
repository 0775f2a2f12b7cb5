(** * Theorems C108-C111: the rules shipped with OCLint, taken together *)
From Verif Require Import Base BaseFacts ModelResults ModelConfig ModelFilter ModelOptions ModelMain
  ModelSource ModelDocgen ModelRuleTable
  SpecResults SpecFilter SpecOptions SpecMain SpecSource SpecDocgen
  ProofResults ProofFilter ProofMain ProofSource ProofDocgen PropSource PropFilter PropDocgen PropMain.
From Coq Require Import Permutation Sorting.Sorted Lia.
Local Arguments lit : simpl never.

(** Decision procedures for facts about the finite table. *)
Fixpoint nodupb (l : list str) : bool :=
  match l with [] => true | x :: l' => negb (existsb (str_eqb x) l') && nodupb l' end.
Lemma nodupb_NoDup l : nodupb l = true -> NoDup l.
Proof.
  induction l as [|x l IH]; simpl; intros H; constructor.
  - apply andb_true_iff in H as [H _]. intros I. apply existsb_In in I. now rewrite I in H.
  - apply andb_true_iff in H as [_ H]. auto.
Qed.
Lemma nodup_map_inj {A} (f : A -> str) l a b :
  NoDup (map f l) -> In a l -> In b l -> f a = f b -> a = b.
Proof.
  induction l as [|x l IH]; simpl; intros N I J E; [destruct I|].
  inversion N as [|? ? NI N']; subst.
  destruct I as [->|I], J as [->|J]; auto.
  - destruct NI. rewrite E. now apply in_map.
  - destruct NI. rewrite <- E. now apply in_map.
Qed.
Lemma nodup_app_l {A} (a b : list A) : NoDup (a ++ b) -> NoDup a.
Proof.
  induction a as [|x a IH]; intros H; [constructor|]. inversion H as [|? ? NI N]; subst.
  constructor; auto. intros I. apply NI, in_or_app. auto.
Qed.
Lemma nodup_app_r {A} (a b : list A) : NoDup (a ++ b) -> NoDup b.
Proof. induction a as [|x a IH]; intros H; auto. inversion H; auto. Qed.
Lemma forallb_Forall' {A} (f : A -> bool) l : forallb f l = true -> forall x, In x l -> f x = true.
Proof. apply forallb_forall. Qed.

(** ** C108: naming a rule names one rule *)
Lemma identifiers_nodup : NoDup (map sh_identifier shipped_rules).
Proof. apply nodupb_NoDup. vm_compute. reflexivity. Qed.
Lemma attributes_nodup : NoDup (map sh_attributeName shipped_rules).
Proof. apply nodupb_NoDup. vm_compute. reflexivity. Qed.
Theorem c108_names_are_unambiguous : forall a b, In a shipped_rules -> In b shipped_rules ->
  (sh_identifier a = sh_identifier b -> a = b)
  /\ (sh_attributeName a = sh_attributeName b -> a = b).
Proof.
  intros a b I J. split; apply nodup_map_inj with (l := shipped_rules); auto.
  - apply identifiers_nodup.
  - apply attributes_nodup.
Qed.

Lemma shipped_env_inj i j : i < length shipped_rules -> j < length shipped_rules ->
  ri_identifier (shipped_env i) = ri_identifier (shipped_env j) -> i = j.
Proof.
  intros Hi Hj E. cbn [shipped_env ri_identifier] in E.
  assert (N : NoDup (map sh_identifier shipped_rules)) by apply identifiers_nodup.
  rewrite (NoDup_nth _ (sh_identifier sh_LongLine)) in N.
  apply N; rewrite ?map_length, ?map_nth; auto.
Qed.
Lemma last_single r : forall x, is_last [r] x <-> x = r.
Proof.
  intros x. split.
  - intros (a & b & E & _). destruct a as [|y a]; [injection E as -> _; auto|].
    injection E as _ E. destruct a; discriminate.
  - intros ->. exists [], []. split; [reflexivity|]. intros r' [].
Qed.
(** Whatever shipped rules are loaded, in whatever order: enabling one by its identifier runs
    it alone; disabling one runs all the others. *)
Theorem c108_enable_runs_that_rule_alone : forall loaded k,
  (forall i, In i loaded -> i < length shipped_rules) -> NoDup loaded -> In k loaded ->
  filteredRules shipped_env (after_requests [Enable (ri_identifier (shipped_env k))]) (registry loaded)
  = Val [k].
Proof.
  intros loaded k H N I.
  destruct (c13_running_rules_are_the_selected_ones shipped_env loaded
              [Enable (ri_identifier (shipped_env k))]) as (running & E & S).
  rewrite E. f_equal. pose proof (H k I) as Hk. clear E.
  assert (S' : sublist_where (fun i => i = k) loaded running).
  { revert H. clear N I. induction S as [|x l s P S IH|x l s P S IH]; intros H.
    - constructor.
    - apply sw_take; [|apply IH; intros; apply H; simpl; auto].
      apply shipped_env_inj; auto; [apply H; simpl; auto|].
      destruct P as [_ P]. destruct P as (a & b & E & _).
      + eexists. apply last_single. reflexivity.
      + destruct a as [|y a]; [injection E as E _; auto|]. injection E as _ E. destruct a; discriminate.
    - apply sw_drop; [|apply IH; intros; apply H; simpl; auto].
      intros ->. apply P. split.
      + intros U. apply last_single in U. discriminate.
      + intros _. now apply last_single. }
  clear S. induction S' as [|x l s P S IH|x l s P S IH].
  - destruct I.
  - subst x. inversion N as [|? ? NI N']; subst. f_equal.
    clear - S NI. induction S as [|x l s P S IH|x l s P S IH]; auto.
    + subst. destruct NI. simpl; auto.
    + apply IH. intros J. apply NI. now right.
  - inversion N; subst. destruct I as [->|I]; [congruence|].
    apply IH; auto. intros; apply H; simpl; auto.
Qed.
Theorem c108_disable_stops_that_rule_alone : forall loaded k,
  (forall i, In i loaded -> i < length shipped_rules) -> k < length shipped_rules ->
  exists running,
    filteredRules shipped_env (after_requests [Disable (ri_identifier (shipped_env k))]) (registry loaded)
    = Val running /\ sublist_where (fun i => i <> k) loaded running.
Proof.
  intros loaded k H Hk.
  destruct (c13_running_rules_are_the_selected_ones shipped_env loaded
              [Disable (ri_identifier (shipped_env k))]) as (running & E & S).
  exists running. split; auto. clear E. revert H. induction S as [|x l s P S IH|x l s P S IH]; intros H.
  - constructor.
  - apply sw_take; [|apply IH; intros; apply H; simpl; auto].
    intros ->. apply P. now apply last_single.
  - apply sw_drop; [|apply IH; intros; apply H; simpl; auto].
    intros NE. apply P. split.
    + intros U. apply last_single in U. injection U as U. apply NE.
      apply shipped_env_inj; auto. apply H. simpl; auto.
    + intros (m & W). apply last_single in W. discriminate.
Qed.
(** An annotation naming one shipped rule suppresses that one only, on any declaration. *)
Lemma no_bracket_in_attributes : forall a, In a shipped_rules -> ~ In "]"%char (sh_attributeName a).
Proof.
  assert (F : forallb (fun a => negb (existsb (Ascii.eqb "]") (sh_attributeName a))) shipped_rules = true)
    by (vm_compute; reflexivity).
  intros a I J. apply (forallb_Forall' _ _ F) in I. apply negb_true_iff in I.
  assert (existsb (Ascii.eqb "]") (sh_attributeName a) = true).
  { apply existsb_exists. exists "]"%char. split; auto. }
  congruence.
Qed.
Theorem c108_annotation_hides_that_rule_alone : forall a b reason,
  In a shipped_rules -> In b shipped_rules ->
  (markedAsSuppress (Decl [$"oclint:suppress[" ++ sh_attributeName a ++ $"]" ++ reason] None)
     (Some (sh_attributeName b)) = true <-> a = b).
Proof.
  intros a b reason I J. rewrite c41_suppression_is_per_rule. split.
  - intros [H|(l & C & H)].
    + destruct H as [H|[]]. discriminate H.
    + inversion C; subst. apply c41_named_rule_only in H; auto using no_bracket_in_attributes.
      now apply (c108_names_are_unambiguous a b I J).
  - intros ->. right. eexists. split; [constructor|].
    apply c41_named_rule_only; auto using no_bracket_in_attributes.
Qed.
Example c108_case :
  filteredRules shipped_env (after_requests [Enable $"HighNPathComplexity"]) (registry (seq 0 72)) = Val [64].
Proof. vm_compute. reflexivity. Qed.

(** The shipped rules are those of the sources that the build lists name.  Finding: one rule,
    which has unit tests, is not among them. *)
Lemma shipped_are_built : forall s, In s shipped_rules <-> In s rule_table /\ sh_built s = true.
Proof.
  intros s. rewrite <- filter_In. replace (filter sh_built rule_table) with shipped_rules; [reflexivity|].
  vm_compute. reflexivity.
Qed.
Theorem c108_every_rule_is_shipped_refuted :
  (exists s, In s rule_table /\ ~ In s shipped_rules)
  /\ forall s, In s rule_table -> In s shipped_rules \/ s = sh_FeatureEnvy.
Proof.
  assert (B : forall s, In s rule_table -> sh_built s = true \/ s = sh_FeatureEnvy).
  { assert (F : filter (fun s => negb (sh_built s)) rule_table = [sh_FeatureEnvy]) by (vm_compute; reflexivity).
    intros s I. destruct (sh_built s) eqn:E; auto. right.
    assert (J : In s (filter (fun s => negb (sh_built s)) rule_table)) by (apply filter_In; rewrite E; auto).
    rewrite F in J. destruct J as [J|[]]. auto. }
  split.
  - exists sh_FeatureEnvy. split; [repeat (first [left; reflexivity | right])|].
    intros I. apply shipped_are_built in I as [_ I]. discriminate I.
  - intros s I. destruct (B s I) as [H|H]; auto. left. apply shipped_are_built. auto.
Qed.

(** ** C109: the documentation of the shipped rules *)
Definition doc_of (s : shipped) (since description example additional : str) : docrule :=
  {| d_name := sh_name s; d_identifier := sh_identifier s; d_category := sh_category s;
     d_fileName := sh_fileName s; d_since := since; d_description := description; d_example := example;
     d_thresholds := sh_thresholds s; d_enableSuppress := sh_enableSuppress s;
     d_attributeName := sh_attributeName s; d_additional := additional |}.
(** The documented source link is the rule's source file. *)
Theorem c109_links_are_right : forall s since description example additional, In s shipped_rules ->
  source_path (doc_of s since description example additional)
  = $"oclint-rules/rules/" ++ sh_directory s ++ $"/" ++ sh_file s.
Proof.
  assert (F : forallb (fun s => str_eqb (sh_category s) (sh_directory s) && str_eqb (sh_fileName s) (sh_file s))
                shipped_rules = true) by (vm_compute; reflexivity).
  intros s since de ex ad I. apply (forallb_Forall' _ _ F) in I. apply andb_true_iff in I as [E1 E2].
  apply str_eqb_eq in E1, E2. unfold source_path, doc_of. cbn [d_category d_fileName].
  now rewrite E1, E2.
Qed.
(** Whatever the texts, and whatever subset is loaded: if paths are taken literally the pages
    do not overwrite each other, so C73 applies. *)
Theorem c109_pages_separate : forall docs,
  (forall d, In d docs -> exists s since description example additional, In s shipped_rules
     /\ d = doc_of s since description example additional) ->
  separate_outputs Some docs.
Proof.
  assert (F : forallb (fun s => negb (str_eqb (sh_category s) $"index")) shipped_rules = true)
    by (vm_compute; reflexivity).
  intros docs H. split; [|split].
  - discriminate.
  - intros p q _ _ E. congruence.
  - intros d I. destruct (H d I) as (s & si & de & ex & ad & J & ->). cbn [doc_of d_category].
    apply (forallb_Forall' _ _ F) in J. apply negb_true_iff, str_eqb_neq in J. exact J.
Qed.
Example c109_case : exists docs, length docs = 72 /\ separate_outputs Some docs
  /\ map fst (map (fun c => (c, tt)) (sort_by (fun c => c) (fst (group docs))))
     = [$"basic"; $"cocoa"; $"convention"; $"cuda"; $"design"; $"empty"; $"migration"; $"naming";
        $"redundant"; $"size"; $"unused"].
Proof.
  exists (map (fun s => doc_of s [] [] [] []) shipped_rules). split; [reflexivity|]. split.
  - apply c109_pages_separate. intros d I. apply in_map_iff in I as (s & <- & I).
    exists s, [], [], [], []. auto.
  - vm_compute. reflexivity.
Qed.

(** ** C110: thresholds *)
(** A documented threshold is read by the rule, with the documented default. *)
Theorem c110_documented_thresholds_are_used : forall s key text, In s shipped_rules ->
  In (key, text) (sh_thresholds s) ->
  exists default intro, In (key, default) (sh_reads s)
    /\ text = intro ++ $"default value is " ++ default ++ $".".
Proof.
  set (ends := fun (e text : str) =>
    str_eqb (skipn (length text - length e) text) e && (length e <=? length text)).
  assert (F : forallb (fun s => forallb (fun kt => existsb (fun kd =>
      str_eqb (fst kd) (fst kt) && ends ($"default value is " ++ snd kd ++ $".") (snd kt))
      (sh_reads s)) (sh_thresholds s)) shipped_rules = true) by (vm_compute; reflexivity).
  intros s key text I J. apply (forallb_Forall' _ _ F) in I. cbv beta in I.
  apply (forallb_Forall' _ _ I) in J. apply existsb_exists in J as ([k d] & J & E).
  cbn [fst snd] in E. apply andb_true_iff in E as [E1 E2]. apply str_eqb_eq in E1. subst k.
  unfold ends in E2. apply andb_true_iff in E2 as [E2 _]. apply str_eqb_eq in E2.
  exists d, (firstn (length text - length ($"default value is " ++ d ++ $".")) text). split; auto.
  rewrite <- E2 at 2. symmetry. apply firstn_skipn.
Qed.
(** Every configuration key belongs to one rule, and to one place in it. *)
Theorem c110_keys_are_not_shared : forall a b key da db,
  In a shipped_rules -> In b shipped_rules ->
  In (key, da) (sh_reads a) -> In (key, db) (sh_reads b) -> a = b /\ da = db.
Proof.
  assert (N : NoDup (map fst (flat_map sh_reads shipped_rules))).
  { apply nodupb_NoDup. vm_compute. reflexivity. }
  intros a b key da db I J Ka Kb. revert N I J. induction shipped_rules as [|s l IH]; intros N I J; [destruct I|].
  cbn [flat_map] in N. rewrite map_app in N.
  assert (D : forall x, In x (map fst (sh_reads s)) -> ~ In x (map fst (flat_map sh_reads l))).
  { clear - N. induction (map fst (sh_reads s)) as [|y m IH]; simpl in *; intros x I; [destruct I|].
    inversion N as [|? ? NI N']; subst. destruct I as [->|I]; auto. intros K. apply NI, in_or_app. auto. }
  assert (Out : forall x d, In x l -> In (key, d) (sh_reads x) -> In key (map fst (flat_map sh_reads l))).
  { intros x d Ix K. apply in_map_iff. exists (key, d). split; auto. apply in_flat_map. eauto. }
  assert (Inn : forall d, In (key, d) (sh_reads s) -> In key (map fst (sh_reads s))).
  { intros d K. apply in_map_iff. exists (key, d). auto. }
  destruct I as [->|I], J as [->|J].
  - split; auto. apply nodup_app_l in N. clear - N Ka Kb.
    induction (sh_reads b) as [|[k d] m IH]; [destruct Ka|]. simpl in N.
    inversion N as [|? ? NI N']; subst. destruct Ka as [E|Ka], Kb as [E'|Kb]; auto.
    + congruence.
    + injection E as <- <-. destruct NI. apply in_map_iff. exists (k, db). auto.
    + injection E' as <- <-. destruct NI. apply in_map_iff. exists (k, da). auto.
  - exfalso. eapply D; eauto.
  - exfalso. eapply D; eauto.
  - apply IH; auto. now apply nodup_app_r in N.
Qed.
Example c110_case : In sh_LongLine shipped_rules /\ In ($"LONG_LINE", $"100") (sh_reads sh_LongLine).
Proof. split; [repeat (first [left; reflexivity | right])|left; reflexivity]. Qed.
(** Finding: the documentation does not list every key a rule reads; exactly the early-exit
    and the unused-local-variable rule have undocumented keys. *)
Theorem c110_every_key_documented_refuted :
  (exists s key default, In s shipped_rules /\ In (key, default) (sh_reads s)
     /\ forall text, ~ In (key, text) (sh_thresholds s))
  /\ (forall s key default, In s shipped_rules -> In (key, default) (sh_reads s) ->
      (forall text, ~ In (key, text) (sh_thresholds s)) ->
      In (sh_name s, key) [($"prefer early exits and continue", $"MAXIMUM_IF_LENGTH");
                           ($"unused local variable", $"RAII_DEFAULT_CLASSES");
                           ($"unused local variable", $"RAII_CUSTOM_CLASSES")]).
Proof.
  split.
  - exists sh_PreferEarlyExit, $"MAXIMUM_IF_LENGTH", $"15". split; [|split].
    + repeat (first [left; reflexivity | right]).
    + left. reflexivity.
    + intros text [].
  - set (listed := [($"prefer early exits and continue", $"MAXIMUM_IF_LENGTH");
                    ($"unused local variable", $"RAII_DEFAULT_CLASSES");
                    ($"unused local variable", $"RAII_CUSTOM_CLASSES")]).
    assert (F : forallb (fun s => forallb (fun kd =>
        existsb (fun kt => str_eqb (fst kt) (fst kd)) (sh_thresholds s)
        || existsb (fun nk => str_eqb (fst nk) (sh_name s) && str_eqb (snd nk) (fst kd)) listed)
        (sh_reads s)) shipped_rules = true) by (vm_compute; reflexivity).
    intros s key d I J N. apply (forallb_Forall' _ _ F) in I. cbv beta in I.
    apply (forallb_Forall' _ _ I) in J. cbn [fst] in J. apply orb_true_iff in J as [J|J].
    + exfalso. apply existsb_exists in J as ([k t] & J & E). cbn [fst] in E. apply str_eqb_eq in E.
      subst. eapply N; eauto.
    + apply existsb_exists in J as ([n k] & J & E). cbn [fst snd] in E.
      apply andb_true_iff in E as [E1 E2]. apply str_eqb_eq in E1, E2. now subst.
Qed.

(** ** C111: priorities of the shipped rules *)
(** All are 1, 2 or 3, but for branch divergence, whose priority 10 is not among those the
    limits and the summaries know. *)
Theorem c111_priorities : forall s, In s shipped_rules ->
  (sh_priority s = 1 \/ sh_priority s = 2 \/ sh_priority s = 3)%Z \/ s = sh_CudaBranchDivergence.
Proof.
  assert (F : forallb (fun s => ((sh_priority s =? 1) || (sh_priority s =? 2) || (sh_priority s =? 3))%Z
       || str_eqb (sh_identifier s) (sh_identifier sh_CudaBranchDivergence)) shipped_rules = true)
    by (vm_compute; reflexivity).
  intros s I. pose proof (forallb_Forall' _ _ F s I) as E. cbv beta in E.
  apply orb_true_iff in E as [E|E].
  - left. rewrite !orb_true_iff, !Z.eqb_eq in E. tauto.
  - right. apply str_eqb_eq in E.
    assert (J : In sh_CudaBranchDivergence shipped_rules)
      by (repeat (first [left; reflexivity | right])).
    exact (proj1 (c108_names_are_unambiguous s _ I J) E).
Qed.
(** Finding: however many branch divergences are found, they never fail the run. *)
Theorem c111_divergence_fails_the_run_refuted : forall w ev n s rules c,
  main w = (ev, Exit n) -> options_are w s -> rules_loaded w s rules -> analysed w s rules c ->
  (forall v, In v (concat (c_collection c)) -> exists a, v_rule v = Some a
     /\ ri_priority (w_rules w a) = sh_priority sh_CudaBranchDivergence) ->
  (0 <= maxP1 s)%Z -> (0 <= maxP2 s)%Z -> (0 <= maxP3 s)%Z ->
  n <> 5%Z.
Proof.
  intros w ev n s rules c H O L A P M1 M2 M3 ->.
  destruct (main_exit _ _ _ H) as [X _]. remember 5%Z as z eqn:E in X. destruct X; try discriminate.
  assert (s0 = s) by (eapply options_are_det; eauto). subst s0.
  assert (rules0 = rules) by (eapply rules_loaded_det; eauto). subst rules0.
  assert (c0 = c) by (eapply analysed_det; eauto). subst c0.
  match goal with Hn : ~ within_limits w s c |- _ => apply Hn end.
  intros l Hl.
  assert (Z : forall p, p <> 10%Z -> count_priority w p l = 0%Z).
  { intros p Np. unfold count_priority.
    assert (In_l : forall v, In v l -> In v (concat (c_collection c))).
    { unfold shows in Hl. destruct (allowDuplicatedViolations s); [now subst|].
      intros v. apply subseq_in. now apply one_copy_subseq. }
    assert (E0 : filter (has_priorityb (w_rules w) p) l = []).
    { clear Hl. induction l as [|v l IH]; auto. cbn [filter].
      destruct (has_priorityb (w_rules w) p v) eqn:B.
      - exfalso. apply has_priorityb_iff in B as (a & Ha & Pa).
        destruct (P v) as (a' & Ha' & Pa'); [apply In_l; simpl; auto|].
        rewrite Ha in Ha'. injection Ha' as <-. apply Np. rewrite <- Pa, Pa'. reflexivity.
      - apply IH. intros; apply In_l; simpl; auto. }
    now rewrite E0. }
  rewrite !Z by lia. lia.
Qed.
Example c111_case : exists w ev s rules c,
  main w = (ev, Exit 0) /\ options_are w s /\ rules_loaded w s rules /\ analysed w s rules c
  /\ concat (c_collection c) <> []
  /\ forall v, In v (concat (c_collection c)) -> exists a, v_rule v = Some a
       /\ ri_priority (w_rules w a) = sh_priority sh_CudaBranchDivergence.
Proof.
  set (w := exm_world 10 None 0).
  assert (H : exists ev, main w = (ev, Exit 0)) by (eexists; vm_compute; reflexivity).
  destruct H as [ev H]. destruct (main_exit _ _ _ H) as [X _].
  remember 0%Z as z eqn:E in X. destruct X; try discriminate.
  exists w, ev, s, rules, c. split; auto. split; auto. split; auto. split; auto.
  match goal with A : analysed w s rules c |- _ => destruct A as (sel & F & D) end.
  cbn [w exm_world w_driver] in D. injection D as <-.
  split.
  - match goal with
    | O : options_are w s, L : rules_loaded w s rules |- _ =>
        destruct O as (cl & Hcl & Ps); cbn in Hcl; injection Hcl as <-; vm_compute in Ps; injection Ps as <-;
        destruct L as (ps & _ & _ & _ & NE)
    end.
    intros Z. destruct rules as [|r0 rules]; [congruence|].
    rewrite filteredRules_eq in F. cbn in F. injection F as <-. cbn in Z. discriminate.
  - intros v I. simpl in I. rewrite app_nil_r in I. apply in_map_iff in I as (x & <- & _).
    exists x. split; reflexivity.
Qed.

Print Assumptions c108_enable_runs_that_rule_alone.
Print Assumptions c108_disable_stops_that_rule_alone.
Print Assumptions c108_annotation_hides_that_rule_alone.
Print Assumptions c109_links_are_right.
Print Assumptions c109_pages_separate.
Print Assumptions c110_documented_thresholds_are_used.
Print Assumptions c110_keys_are_not_shared.
Print Assumptions c110_every_key_documented_refuted.
Print Assumptions c111_priorities.
Print Assumptions c111_divergence_fails_the_run_refuted.
Print Assumptions c108_every_rule_is_shipped_refuted.
