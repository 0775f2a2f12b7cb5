(** * Proofs: options *)
From Verif Require Import Base BaseFacts ModelResults ModelConfig ModelFilter ModelOptions
  SpecConfig SpecFilter SpecOptions ProofConfig ProofFilter.

Lemma says_text_eq v : createOptionalString v = says_text v.
Proof. now destruct v. Qed.
Lemma says_int_eq v : createOptionalInt v = says_int v.
Proof.
  unfold createOptionalInt, says_int, INT_MIN.
  destruct (Z.eqb_spec v (-2147483648)), (Z.eq_dec v (-2147483648)); congruence.
Qed.
Lemma says_bool_eq v : createOptionalBool v = says_bool v.
Proof. now destruct v. Qed.

Definition upd {T} (cur : T) (o : option T) : T := match o with Some v => v | None => cur end.

Lemma updates_occurred {T} (l : list (option T)) v :
  fold_left updateArgIfSet l {| o_value := v; o_occurred := true |}
  = {| o_value := v; o_occurred := true |}.
Proof. induction l as [|[x|] l IH]; simpl; auto. Qed.

Lemma updates_effective {T} (l : list (option T)) init given :
  effective given l init (o_value (fold_left updateArgIfSet l (opt_init init given))).
Proof.
  destruct given as [g|]; simpl.
  - now rewrite updates_occurred.
  - set (o := {| o_value := init; o_occurred := false |}).
    assert (H : o_occurred (fold_left updateArgIfSet l o) = false /\
      ((exists a x b, l = a ++ Some x :: b /\ Forall (fun o => o = None) b
                      /\ o_value (fold_left updateArgIfSet l o) = x)
      \/ (Forall (fun o => o = None) l /\ o_value (fold_left updateArgIfSet l o) = init))).
    { induction l as [|x l IH] using rev_ind.
      - simpl. auto.
      - rewrite fold_left_app. cbn [fold_left]. destruct IH as [I1 I2]. destruct x as [x|].
        + unfold updateArgIfSet at 1 3 5. rewrite I1. cbn. split; auto. left. exists l, x, []. auto.
        + cbn [updateArgIfSet]. split; auto. destruct I2 as [(a & x & b & -> & Hb & Hv)|[Hl Hv]].
          * left. exists a, x, (b ++ [None]). rewrite <- app_assoc. split; [reflexivity|]. split; auto.
            apply Forall_app; auto.
          * right. split; auto. apply Forall_app; auto. }
    tauto.
Qed.

Lemma config_paths_eq read yaml e :
  map (ConfigFile_read read yaml) (configFilePaths e) = config_files read yaml e.
Proof.
  unfold configFilePaths, config_files, etcPath, installPrefix.
  unfold homePath.
  rewrite <- !app_assoc. destruct (en_home e) as [[|]|]; reflexivity.
Qed.

Lemma fold_map {A B C} (f : C -> B -> C) (g : A -> B) l c :
  fold_left (fun c a => f c (g a)) l c = fold_left f (map g l) c.
Proof. revert c; induction l as [|a l IH]; intros c; simpl; auto. Qed.

Lemma processConfigFiles_eq read yaml e s :
  processConfigFiles read yaml e s = fold_left processConfigFile (config_files read yaml e) s.
Proof. unfold processConfigFiles. rewrite fold_map, config_paths_eq. reflexivity. Qed.

(** Field by field: each option is folded independently. *)
Lemma fold_proj {S F T V} (step : S -> F -> S) (proj : S -> T) (up : T -> V -> T) (say : F -> V) :
  (forall s f, proj (step s f) = up (proj s) (say f)) ->
  forall files s, proj (fold_left step files s) = fold_left up (map say files) (proj s).
Proof.
  intros H files. induction files as [|f files IH]; intros s; simpl; auto.
  now rewrite IH, H.
Qed.

Lemma process_inv read yaml e cl s :
  process read yaml e cl = Val s ->
  exists c, processRuleConfigurations (cl_rc cl)
              (os_cfg (fold_left processConfigFile (config_files read yaml e) (os_initial cl))) = Val c
  /\ let s0 := fold_left processConfigFile (config_files read yaml e) (os_initial cl) in
     s = {| argOutput := argOutput s0; argReportType := argReportType s0;
         argRulesPath := argRulesPath s0; argMaxP1 := argMaxP1 s0; argMaxP2 := argMaxP2 s0;
         argMaxP3 := argMaxP3 s0; argGlobalAnalysis := argGlobalAnalysis s0;
         argClangChecker := argClangChecker s0; argDuplications := argDuplications s0;
         os_filter := disableRules (enableRules (os_filter s0) (cl_rule cl)) (cl_disableRule cl);
         os_cfg := c |}.
Proof.
  unfold process. rewrite processConfigFiles_eq. cbv zeta. intros H.
  destruct (processRuleConfigurations _ _) as [c| |] eqn:E; try discriminate.
  exists c. split; auto. simpl in H. now inversion H.
Qed.

Section Precedence.
  Variables (read : str -> option str) (yaml : str -> configfile) (e : penv) (cl : cmdline).
  Variable s : ostate.
  Hypothesis Hs : process read yaml e cl = Val s.

  Ltac prec proj say init given eqn :=
    destruct (process_inv _ _ _ _ _ Hs) as (c & _ & ->); cbn;
    rewrite (fold_proj processConfigFile proj updateArgIfSet say)
      by (intros s0 f; simpl; rewrite ?says_text_eq, ?says_int_eq, ?says_bool_eq; reflexivity);
    apply updates_effective.

  Lemma prec_output : effective (cl_output cl)
    (map (fun f => says_text (cf_output f)) (config_files read yaml e)) $"-" (o_value (argOutput s)).
  Proof. prec argOutput (fun f => says_text (cf_output f)) 0 0 0. Qed.
  Lemma prec_reportType : effective (cl_reportType cl)
    (map (fun f => says_text (cf_reportType f)) (config_files read yaml e)) $"text" (reportType s).
  Proof. unfold reportType. prec argReportType (fun f => says_text (cf_reportType f)) 0 0 0. Qed.
  Lemma prec_maxP1 : effective (cl_maxP1 cl)
    (map (fun f => says_int (cf_maxP1 f)) (config_files read yaml e)) 0%Z (maxP1 s).
  Proof. unfold maxP1. prec argMaxP1 (fun f => says_int (cf_maxP1 f)) 0 0 0. Qed.
  Lemma prec_maxP2 : effective (cl_maxP2 cl)
    (map (fun f => says_int (cf_maxP2 f)) (config_files read yaml e)) 10%Z (maxP2 s).
  Proof. unfold maxP2. prec argMaxP2 (fun f => says_int (cf_maxP2 f)) 0 0 0. Qed.
  Lemma prec_maxP3 : effective (cl_maxP3 cl)
    (map (fun f => says_int (cf_maxP3 f)) (config_files read yaml e)) 20%Z (maxP3 s).
  Proof. unfold maxP3. prec argMaxP3 (fun f => says_int (cf_maxP3 f)) 0 0 0. Qed.
  Lemma prec_global : effective (cl_globalAnalysis cl)
    (map (fun f => says_bool (cf_enableGlobalAnalysis f)) (config_files read yaml e)) false
    (enableGlobalAnalysis s).
  Proof.
    unfold enableGlobalAnalysis.
    prec argGlobalAnalysis (fun f => says_bool (cf_enableGlobalAnalysis f)) 0 0 0.
  Qed.
  Lemma prec_checker : effective (cl_clangChecker cl)
    (map (fun f => says_bool (cf_clangChecker f)) (config_files read yaml e)) false
    (enableClangChecker s).
  Proof.
    unfold enableClangChecker. prec argClangChecker (fun f => says_bool (cf_clangChecker f)) 0 0 0.
  Qed.
  Lemma prec_dup : effective (cl_duplications cl)
    (map (fun f => says_bool (cf_allowDuplicatedViolations f)) (config_files read yaml e)) false
    (allowDuplicatedViolations s).
  Proof.
    unfold allowDuplicatedViolations.
    prec argDuplications (fun f => says_bool (cf_allowDuplicatedViolations f)) 0 0 0.
  Qed.

  Lemma rules_path_list :
    argRulesPath s = cl_R cl ++ concat (map cf_rulePaths (config_files read yaml e)).
  Proof.
    destruct (process_inv _ _ _ _ _ Hs) as (c & _ & ->). cbn.
    generalize (config_files read yaml e). intros files.
    replace (cl_R cl) with (argRulesPath (os_initial cl)) by reflexivity.
    generalize (os_initial cl). induction files as [|f files IH]; intros s0; simpl.
    - now rewrite app_nil_r.
    - rewrite IH. simpl. now rewrite <- app_assoc.
  Qed.

  (** The requests made to the filter, in order. *)
  Definition file_requests (f : configfile) : list request :=
    map Enable (cf_rules f) ++ map Disable (cf_disableRules f).

  Lemma enableRules_steps f names :
    enableRules f names = fold_left request_step (map Enable names) f.
  Proof. unfold enableRules. now rewrite <- fold_map. Qed.
  Lemma disableRules_steps f names :
    disableRules f names = fold_left request_step (map Disable names) f.
  Proof. unfold disableRules. now rewrite <- fold_map. Qed.

  Lemma filter_requests :
    os_filter s = after_requests
      (concat (map file_requests (config_files read yaml e))
       ++ map Enable (cl_rule cl) ++ map Disable (cl_disableRule cl)).
  Proof.
    destruct (process_inv _ _ _ _ _ Hs) as (c & _ & ->). cbn.
    unfold after_requests. rewrite enableRules_steps, disableRules_steps, !fold_left_app.
    f_equal. f_equal.
    generalize (config_files read yaml e). intros files.
    replace f_empty with (os_filter (os_initial cl)) by reflexivity.
    generalize (os_initial cl). induction files as [|f files IH]; intros s0; simpl; auto.
    rewrite IH. cbn. unfold file_requests. rewrite enableRules_steps, disableRules_steps.
    now rewrite !fold_left_app.
  Qed.
End Precedence.

(** ** -rc splitting *)

Lemma to_int_small z : (0 <= z <= INT_MAX)%Z -> to_int z = z.
Proof.
  unfold to_int, INT_MAX. intros H. rewrite Z.mod_small by lia.
  destruct (z <? 2147483648)%Z eqn:E; auto. apply Z.ltb_ge in E. lia.
Qed.

Lemma size_t_small z : (0 <= z <= INT_MAX)%Z -> size_t z = z.
Proof. unfold size_t, INT_MAX. intros H. apply Z.mod_small. lia. Qed.

Lemma split_rc_eq k v :
  (Z.of_nat (length (k ++ "="%char :: v)) <= INT_MAX)%Z -> ~ In "="%char v ->
  splitRuleConfiguration (k ++ "="%char :: v) = Val (k, v).
Proof.
  intros Hlen Hv. unfold splitRuleConfiguration.
  rewrite (rfind_char_intro "="%char k v Hv).
  rewrite app_length in *. simpl length in *.
  assert (Hk : (0 <= Z.of_nat (length k) <= INT_MAX)%Z) by lia.
  rewrite to_int_small by auto.
  rewrite !size_t_small by (unfold INT_MAX in *; lia).
  unfold substr_sz. rewrite app_length. simpl length.
  destruct (Z.of_nat (length k + S (length v)) <? 0)%Z eqn:E; [apply Z.ltb_lt in E; lia|].
  cbn [obind].
  destruct (Z.of_nat (length k + S (length v)) <? Z.of_nat (length k) + 1)%Z eqn:E2;
    [apply Z.ltb_lt in E2; lia|].
  cbn [obind]. f_equal. f_equal.
  - replace (Z.to_nat _) with (length k) by lia. simpl skipn. apply firstn_app_exact.
  - replace (Z.to_nat (Z.of_nat (length k) + 1)) with (length (k ++ ["="%char]))
      by (rewrite app_length; simpl; lia).
    replace (k ++ "="%char :: v) with ((k ++ ["="%char]) ++ v) by (rewrite <- app_assoc; reflexivity).
    rewrite skipn_app_exact. apply firstn_all2. lia.
Qed.

Lemma split_rc_none a :
  (Z.of_nat (length a) <= INT_MAX)%Z -> ~ In "="%char a ->
  splitRuleConfiguration a = Val (a, a).
Proof.
  intros Hlen Ha. unfold splitRuleConfiguration. apply rfind_char_none in Ha. rewrite Ha.
  change (to_int NPOS) with (-1)%Z.
  change (size_t (-1)) with 18446744073709551615%Z. change (size_t (-1 + 1)) with 0%Z.
  replace (Z.of_nat (length a) - -1 - 1)%Z with (Z.of_nat (length a)) by lia.
  rewrite size_t_small by lia. unfold substr_sz.
  destruct (Z.of_nat (length a) <? 0)%Z eqn:E; [apply Z.ltb_lt in E; lia|]. cbn [obind].
  change (Z.to_nat 0) with 0. simpl skipn.
  f_equal. f_equal; apply firstn_all2; unfold INT_MAX in *; lia.
Qed.

Lemma split_rc_spec a :
  (Z.of_nat (length a) <= INT_MAX)%Z ->
  exists kv, splitRuleConfiguration a = Val kv /\ rc_setting a kv.
Proof.
  intros H. destruct (rfind_char "="%char a) as [n|] eqn:E.
  - apply rfind_char_some in E as (k & v & -> & _ & Hv). exists (k, v).
    split; [now apply split_rc_eq|]. right. eauto.
  - apply rfind_char_none in E. exists (a, a). split; [now apply split_rc_none|]. left. auto.
Qed.

Lemma rc_setting_det a kv1 kv2 : rc_setting a kv1 -> rc_setting a kv2 -> kv1 = kv2.
Proof.
  intros [[H1 ->]|(k & v & -> & Hv & ->)] [[H2 ->]|(k2 & v2 & E & Hv2 & ->)].
  - reflexivity.
  - exfalso. apply H1. rewrite E. apply in_elt.
  - exfalso. apply H2. apply in_elt.
  - assert (A : Some (length k) = Some (length k2)).
    { rewrite <- (rfind_char_intro "="%char k v Hv), <- (rfind_char_intro "="%char k2 v2 Hv2).
      now rewrite E. }
    inversion A as [L]. clear A.
    assert (k = k2).
    { pose proof (firstn_app_exact k ("="%char :: v)) as F1.
      pose proof (firstn_app_exact k2 ("="%char :: v2)) as F2. rewrite <- L in F2.
      rewrite E in F1. congruence. }
    subst k2. apply app_inv_head in E. congruence.
Qed.

(** ** Rule configuration precedence *)

Lemma fold_add_get l c k :
  (forall v, last_setting l k v ->
     cfg_get (fold_left (fun c kv => addConfiguration c (fst kv) (snd kv)) l c) k = Some v)
  /\ (~ sets l k ->
     cfg_get (fold_left (fun c kv => addConfiguration c (fst kv) (snd kv)) l c) k = cfg_get c k).
Proof.
  induction l as [|[k0 v0] l IH] using rev_ind.
  - split; auto. intros v (a & b & E & _). now destruct a.
  - rewrite fold_left_app. cbn [fold_left fst snd]. rewrite get_add. destruct IH as [I1 I2]. split.
    + intros v (a & b & E & Hb). destruct b as [|y b] using rev_ind.
      * apply app_inj_tail in E as [_ E]. inversion E; subst. now rewrite str_eqb_refl.
      * clear IHb. rewrite app_comm_cons, app_assoc in E. apply app_inj_tail in E as [E <-].
        assert (Hn : k0 <> k).
        { intros ->. apply (Hb v0). apply in_app_iff. simpl; auto. }
        apply str_eqb_neq in Hn. rewrite Hn. apply I1. exists a, b. split; auto.
        intros v' Hv'. apply (Hb v'). apply in_app_iff. auto.
    + intros Hns. assert (Hn : k0 <> k).
      { intros ->. apply Hns. exists v0. apply in_app_iff. simpl; auto. }
      apply str_eqb_neq in Hn. rewrite Hn. apply I2.
      intros [v Hv]. apply Hns. exists v. apply in_app_iff. auto.
Qed.

Lemma processRC_fold rcs c c' :
  processRuleConfigurations rcs c = Val c' ->
  Forall (fun a => (Z.of_nat (length a) <= INT_MAX)%Z) rcs ->
  exists kvs, Forall2 rc_setting rcs kvs /\
    c' = fold_left (fun c kv => addConfiguration c (fst kv) (snd kv)) kvs c.
Proof.
  revert c; induction rcs as [|a rcs IH]; intros c H Hl; simpl in H.
  - inversion H; subst. exists []. auto.
  - inversion Hl; subst. destruct (split_rc_spec a) as (kv & E & Hkv); auto.
    rewrite E in H. simpl in H. destruct (IH _ H) as (kvs & F & ->); auto.
    exists (kv :: kvs). auto.
Qed.

Lemma processRC_total rcs c :
  Forall (fun a => (Z.of_nat (length a) <= INT_MAX)%Z) rcs ->
  exists c', processRuleConfigurations rcs c = Val c'.
Proof.
  revert c; induction rcs as [|a rcs IH]; intros c Hl; simpl; [eauto|].
  inversion Hl; subst. destruct (split_rc_spec a) as (kv & E & Hkv); auto.
  rewrite E. simpl. auto.
Qed.

Lemma process_total read yaml e cl :
  Forall (fun a => (Z.of_nat (length a) <= INT_MAX)%Z) (cl_rc cl) ->
  exists s, process read yaml e cl = Val s.
Proof.
  intros H. unfold process. cbv zeta.
  destruct (processRC_total (cl_rc cl) (os_cfg (processConfigFiles read yaml e (os_initial cl))) H)
    as [c ->]. simpl. eauto.
Qed.

Lemma files_cfg files s :
  os_cfg (fold_left processConfigFile files s)
  = fold_left (fun c kv => addConfiguration c (fst kv) (snd kv))
      (concat (map cf_ruleConfigurations files)) (os_cfg s).
Proof.
  revert s; induction files as [|f files IH]; intros s; simpl; auto.
  rewrite IH, fold_left_app. reflexivity.
Qed.

(** ** Rule requests *)

Lemma is_last_app a b r :
  is_last (a ++ b) r <->
  is_last b r \/ ((forall r', In r' b -> req_name r' <> req_name r) /\ is_last a r).
Proof.
  induction b as [|x b IH] using rev_ind.
  - rewrite app_nil_r. split.
    + intros H. right. split; [intros r' []|exact H].
    + intros [H|[_ H]]; auto. now apply is_last_nil in H.
  - rewrite app_assoc, !is_last_snoc, IH. split.
    + intros [->|[Hn [H|[H1 H2]]]]; auto. right. split; auto.
      intros r' Hr. apply in_app_iff in Hr as [Hr|[<-|[]]]; auto.
    + intros [[->|[Hn H]]|[H1 H2]]; auto. right. split.
      * apply H1. apply in_app_iff. simpl; auto.
      * right. split; auto. intros r' Hr. apply H1. apply in_app_iff. auto.
Qed.

Lemma is_last_map_enable names n : is_last (map Enable names) (Enable n) <-> In n names.
Proof.
  induction names as [|x names IH] using rev_ind.
  - simpl. split; [intros H; now apply is_last_nil in H | intros []].
  - rewrite map_app. cbn [map]. rewrite is_last_snoc, in_app_iff, IH. cbn [req_name In].
    split.
    + intros [[= ->]|[_ H]]; auto.
    + intros [H|[->|[]]]; auto. destruct (str_eq_dec x n) as [->|]; auto.
Qed.
Lemma is_last_map_disable names n : is_last (map Disable names) (Disable n) <-> In n names.
Proof.
  induction names as [|x names IH] using rev_ind.
  - simpl. split; [intros H; now apply is_last_nil in H | intros []].
  - rewrite map_app. cbn [map]. rewrite is_last_snoc, in_app_iff, IH. cbn [req_name In].
    split.
    + intros [[= ->]|[_ H]]; auto.
    + intros [H|[->|[]]]; auto. destruct (str_eq_dec x n) as [->|]; auto.
Qed.
Lemma is_last_in reqs r : is_last reqs r -> In r reqs.
Proof. intros (a & b & -> & _). apply in_elt. Qed.

Lemma unnamed_map_enable names n :
  ~ In n names -> forall r', In r' (map Enable names) -> req_name r' <> n.
Proof. intros H r' Hr. apply in_map_iff in Hr as (x & <- & Hx). simpl. congruence. Qed.
Lemma unnamed_map_disable names n :
  ~ In n names -> forall r', In r' (map Disable names) -> req_name r' <> n.
Proof. intros H r' Hr. apply in_map_iff in Hr as (x & <- & Hx). simpl. congruence. Qed.

(** Last request in "enable these, then disable those". *)
Lemma block_disabled en dis pre n :
  In n dis -> unwanted (pre ++ map Enable en ++ map Disable dis) n.
Proof.
  intros H. unfold unwanted. rewrite app_assoc. apply is_last_app. left.
  now apply is_last_map_disable.
Qed.
Lemma block_enabled en dis pre n :
  In n en -> ~ In n dis -> wanted (pre ++ map Enable en ++ map Disable dis) n.
Proof.
  intros H Hd. unfold wanted. rewrite app_assoc. apply is_last_app. right. split.
  - now apply unnamed_map_disable.
  - apply is_last_app. left. now apply is_last_map_enable.
Qed.
Lemma block_other en dis pre n r :
  req_name r = n -> ~ In n en -> ~ In n dis ->
  is_last (pre ++ map Enable en ++ map Disable dis) r <-> is_last pre r.
Proof.
  intros <- He Hd. rewrite is_last_app. split.
  - intros [H|[_ H]]; auto. exfalso. apply is_last_in in H.
    apply in_app_iff in H as [H|H]; apply in_map_iff in H as (x & <- & Hx); simpl in *; auto.
  - intros H. right. split; auto. intros r' Hr. apply in_app_iff in Hr as [Hr|Hr].
    + now apply (unnamed_map_enable en).
    + now apply (unnamed_map_disable dis).
Qed.

Lemma concat_map_app {A B} (f : A -> list B) l1 l2 :
  concat (map f (l1 ++ l2)) = concat (map f l1) ++ concat (map f l2).
Proof. now rewrite map_app, concat_app. Qed.

Lemma files_unnamed files n r :
  req_name r = n ->
  (forall f, In f files -> ~ In n (cf_rules f) /\ ~ In n (cf_disableRules f)) ->
  forall r', In r' (concat (map file_requests files)) -> req_name r' <> req_name r.
Proof.
  intros <- H r' Hr. apply in_concat in Hr as (l & Hl & Hr).
  apply in_map_iff in Hl as (f & <- & Hf). destruct (H f Hf) as [H1 H2].
  unfold file_requests in Hr. apply in_app_iff in Hr as [Hr|Hr].
  - now apply (unnamed_map_enable (cf_rules f)).
  - now apply (unnamed_map_disable (cf_disableRules f)).
Qed.
