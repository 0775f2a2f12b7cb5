(** * The settings of the shipped rules: C117, C118 *)
From Verif Require Import Base BaseFacts ModelResults ModelConfig ModelFilter ModelOptions ModelMain ModelDriver
  ModelSource ModelAST ModelRules ModelRulesBasic ModelRulesConvention ModelRulesNullCheck
  ModelRulesRedundant ModelRulesVars ModelRulesObjC ModelRuleTable ModelProgram
  SpecResults SpecConfig SpecFilter SpecOptions SpecMain SpecAST SpecSource SpecExec SpecRules SpecRulesRedundant SpecRulesVars SpecDriver SpecProgram SpecCatalogue SpecSettings
  ProofConfig ProofFilter ProofOptions ProofMain ProofRules ProofRulesVars ProofProgram
  PropConfig PropOptions PropMain PropRules PropRuleTable PropProgram PropCatalogue.
From Coq Require Import Lia.
Local Arguments lit : simpl never.

(** ** C117 *)
Definition get_or (c : cfg) (key default : str) : str := match cfg_get c key with Some v => v | None => default end.
Lemma in_force_iff c key default text : in_force c key default text <-> text = get_or c key default.
Proof. unfold in_force, get_or. rewrite stringForKey_get. split; [intros [= <-]; reflexivity|intros ->; reflexivity]. Qed.
Lemma same_get s c1 c2 key default : same_settings s c1 c2 -> In (key, default) (sh_reads s) -> get_or c1 key default = get_or c2 key default.
Proof. intros H I. specialize (H key default _ I (proj2 (in_force_iff _ _ _ _) eq_refl)). now apply in_force_iff in H. Qed.
Lemma same_int s c1 c2 key default d {X} (f : Z -> outcome X) : same_settings s c1 c2 -> In (key, default) (sh_reads s) ->
  atoi default = Val d -> obind (intForKey c1 key d) (fun t => f (fst t)) = obind (intForKey c2 key d) (fun t => f (fst t)).
Proof.
  intros H I A. pose proof (same_get _ _ _ _ _ H I) as E.
  assert (Q : forall c, obind (intForKey c key d) (fun t => f (fst t)) = obind (atoi (get_or c key default)) f).
  { intros c. rewrite intForKey_get. unfold get_or. destruct (cfg_get c key) as [v|]; [destruct (atoi v); reflexivity|]. now rewrite A. }
  now rewrite !Q, E.
Qed.
Lemma same_limit s c1 c2 key default d reads visit root : same_settings s c1 c2 -> In (key, default) (sh_reads s) -> atoi default = Val d ->
  with_limit c1 key d reads visit root = with_limit c2 key d reads visit root.
Proof.
  intros H I A. unfold with_limit. apply outcome_ext. intros n. destruct (reads n); auto.
  apply (same_int s c1 c2 key default d (fun t => Val (visit t n))); auto.
Qed.
Lemma same_setUp s c1 c2 key default d visit roots : same_settings s c1 c2 -> In (key, default) (sh_reads s) -> atoi default = Val d ->
  with_setUp c1 key d visit roots = with_setUp c2 key d visit roots.
Proof. intros H I A. unfold with_setUp. apply (same_int s c1 c2 key default d (fun t => Val (flat_map (reports (visit t)) roots))); auto. Qed.

Lemma same_rule s b : In (s, b) shipped_behaviours -> forall c1 c2, same_settings s c1 c2 ->
  match b with
  | BChecked rule => forall x root, rule c1 x root = rule c2 x root
  | BSetUp rule => forall x roots, rule c1 x roots = rule c2 x roots
  | BStack => forall stack roots, ShortVariableName_run c1 stack roots = ShortVariableName_run c2 stack roots
  | BLines => forall u k vs sc, LongLine_apply c1 u k vs sc = LongLine_apply c2 u k vs sc
  | _ => True
  end.
Proof.
  assert (F : Forall (fun sb => forall c1 c2, same_settings (fst sb) c1 c2 ->
     match snd sb with
     | BChecked rule => forall x root, rule c1 x root = rule c2 x root
     | BSetUp rule => forall x roots, rule c1 x roots = rule c2 x roots
     | BStack => forall stack roots, ShortVariableName_run c1 stack roots = ShortVariableName_run c2 stack roots
     | BLines => forall u k vs sc, LongLine_apply c1 u k vs sc = LongLine_apply c2 u k vs sc
     | _ => True
     end) shipped_behaviours).
  { unfold shipped_behaviours. repeat (apply Forall_cons || apply Forall_nil); cbn [fst snd]; try (intros; exact I); try (intros; reflexivity).
    all: intros c1 c2 H; try (intros x root; (eapply same_limit || eapply same_setUp); [exact H|left; reflexivity|vm_compute; reflexivity]).
    - intros x root. unfold LongVariableNameRule. apply outcome_ext. intros n. destruct (isVarDecl n); auto.
      eapply (same_int _ c1 c2 _ _ _ (fun t => LongVariableName_visit t n)); [exact H|left; reflexivity|vm_compute; reflexivity].
    - intros stack roots. rewrite !short_cases.
      assert (E : obind (intForKey c1 $"SHORT_VARIABLE_NAME" 3) (fun t => Val (fst t)) = obind (intForKey c2 $"SHORT_VARIABLE_NAME" 3) (fun t => Val (fst t)))
        by (eapply (same_int _ c1 c2 _ _ _ (fun t => Val t)); [exact H|left; reflexivity|vm_compute; reflexivity]).
      destruct (intForKey c1 _ _) as [[T1 c1']|m1|], (intForKey c2 _ _) as [[T2 c2']|m2|]; cbn [obind fst] in E; try discriminate E; auto; now injection E as ->.
    - intros u k vs sc. unfold LongLine_apply. revert vs sc. induction (source_lines (u_content u)) as [|[n l] ls IH]; intros vs sc; cbn [LongLine_loop]; [reflexivity|].
      assert (E : LongLine_eachLine c1 u k n l vs sc = LongLine_eachLine c2 u k n l vs sc).
      { unfold LongLine_eachLine.
        eapply (same_int _ c1 c2 _ _ _ (fun t => if (t <? Z.of_nat (length l))%Z
          then Val (addViolation_line u n 1 n (Z.of_nat (length l)) k $"long line"
             ($"Line with " ++ show_Z (Z.of_nat (length l)) ++ $" characters exceeds limit of " ++ show_Z t) vs sc)
          else Val (vs, sc))); [exact H|left; reflexivity|vm_compute; reflexivity]. }
      rewrite E. destruct (LongLine_eachLine c2 u k n l vs sc) as [[? ?]|m|]; cbn [obind fst snd]; auto.
    - intros x root. unfold NPathComplexityRule.
      assert (E : obind (intForKey c1 $"NPATH_COMPLEXITY" 200) (fun t => Val (fst t)) = obind (intForKey c2 $"NPATH_COMPLEXITY" 200) (fun t => Val (fst t)))
        by (eapply (same_int _ c1 c2 _ _ _ (fun t => Val t)); [exact H|left; reflexivity|vm_compute; reflexivity]).
      now rewrite E.
    - intros x root. unfold UnusedLocalVariableRule, skippedTypes. rewrite !stringForKey_get. cbn [obind fst snd]. rewrite !stringForKey_get. cbn [obind fst snd].
      pose proof (same_get _ _ _ $"RAII_DEFAULT_CLASSES" $"std::lock_guard, std::unique_lock" H (or_introl eq_refl)) as E1.
      pose proof (same_get _ _ _ $"RAII_CUSTOM_CLASSES" [] H (or_intror (or_introl eq_refl))) as E2.
      unfold get_or in E1, E2. now rewrite E1, E2. }
  rewrite Forall_forall in F. intros I c1 c2 H. exact (F (s, b) I c1 c2 H).
Qed.
Lemma same_takeoff s c1 c2 k x st : nth_error shipped_rules k = Some s -> same_settings s c1 c2 -> takeoff c1 k x st = takeoff c2 k x st.
Proof.
  intros K H. destruct (named_row k s (sh_name s) (conj K eq_refl)) as [b Hb].
  pose proof (same_rule s b (nth_error_In _ _ Hb) c1 c2 H) as R. unfold takeoff. rewrite Hb.
  destruct b; cbn [calls]; auto.
  - assert (E : forall roots, each_root (rule c1 x) roots = each_root (rule c2 x) roots).
    { intros roots. induction roots as [|r roots IH]; cbn [each_root]; auto. now rewrite R, IH. }
    now rewrite E.
  - destruct (set_up x s); auto. now rewrite R.
  - now rewrite R.
  - now rewrite R.
Qed.
(** What a rule records depends on the configuration only through the keys it reads; setting a
    key to its default is like leaving it alone. *)
Theorem c117_own_settings_only : forall s c1 c2 k x vs, nth_error shipped_rules k = Some s ->
  same_settings s c1 c2 -> (alone c1 k x vs <-> alone c2 k x vs).
Proof.
  intros s c1 c2 k x vs K H. rewrite !alone_iff. now rewrite (same_takeoff s c1 c2 k x r_initial K H).
Qed.
(** A key the rule does not read is nothing to it. *)
Theorem c117_foreign_key : forall s c k x vs key value, nth_error shipped_rules k = Some s ->
  (forall default, ~ In (key, default) (sh_reads s)) -> (alone c k x vs <-> alone (addConfiguration c key value) k x vs).
Proof.
  intros s c k x vs key value K N. apply (c117_own_settings_only s); auto.
  intros k' d t I H. apply in_force_iff in H. apply in_force_iff. unfold get_or in *. rewrite get_add.
  destruct (str_eqb key k') eqn:E; auto. apply str_eqb_eq in E. subst. now apply N in I.
Qed.
(** Nor is a key another rule reads. *)
Theorem c117_another_rules_key : forall a b c k x vs key default value, In a shipped_rules -> nth_error shipped_rules k = Some b -> a <> b ->
  In (key, default) (sh_reads a) -> (alone c k x vs <-> alone (addConfiguration c key value) k x vs).
Proof.
  intros a b c k x vs key d value Ia K N Ka. apply (c117_foreign_key b); auto. intros d' Kb.
  destruct (c110_keys_are_not_shared a b key d d' Ia (nth_error_In _ _ K) Ka Kb). auto.
Qed.
Theorem c117_default_spelled_out : forall s c k x vs key default, nth_error shipped_rules k = Some s ->
  In (key, default) (sh_reads s) -> hasKey c key = false -> (alone c k x vs <-> alone (addConfiguration c key default) k x vs).
Proof.
  intros s c k x vs key default K I0 H0. apply (c117_own_settings_only s); auto.
  intros k' d t I H. apply in_force_iff in H. apply in_force_iff. unfold get_or in *. rewrite get_add.
  destruct (str_eqb key k') eqn:E; auto. apply str_eqb_eq in E. subst k'.
  destruct (c110_keys_are_not_shared s s key default d (nth_error_In _ _ K) (nth_error_In _ _ K) I0 I) as [_ <-].
  rewrite hasKey_get in H0. destruct (cfg_get c key); [discriminate|auto].
Qed.
(** Two runs, whatever the other rules, files and settings. *)
Theorem c117_runs_agree : forall i1 s1 rules1 c1 a1 b1 i2 s2 rules2 c2 a2 b2 x k sh,
  driver_of i1 s1 rules1 = (c1, Val tt) -> compiled i1 (a1 ++ x :: b1) -> separate (a1 ++ x :: b1) -> NoDup rules1 ->
  driver_of i2 s2 rules2 = (c2, Val tt) -> compiled i2 (a2 ++ x :: b2) -> separate (a2 ++ x :: b2) -> NoDup rules2 ->
  nth_error shipped_rules k = Some sh -> same_settings sh (os_cfg s1) (os_cfg s2) -> In k rules1 -> In k rules2 ->
  exists set1 set2 vs, nth_error (c_collection c1) (length a1) = Some set1
    /\ nth_error (c_collection c2) (length a2) = Some set2
    /\ of_rule k set1 vs /\ of_rule k set2 vs.
Proof.
  intros i1 s1 rules1 c1 a1 b1 i2 s2 rules2 c2 a2 b2 x k sh D1 C1 S1 N1 D2 C2 S2 N2 Hk E K1 K2.
  destruct (c112_each_rule_on_its_own _ _ _ _ _ D1 C1 N1 S1) as (t1 & T1 & E1).
  destruct (c112_each_rule_on_its_own _ _ _ _ _ D2 C2 N2 S2) as (t2 & T2 & E2).
  destruct (table_nth _ _ _ _ _ _ T1) as (r1 & R1 & F1). destruct (table_nth _ _ _ _ _ _ T2) as (r2 & R2 & F2).
  destruct (row_of_rule _ _ _ _ _ N1 K1 F1) as (v1 & A1 & O1). destruct (row_of_rule _ _ _ _ _ N2 K2 F2) as (v2 & A2 & O2).
  apply (c117_own_settings_only sh _ _ k x v1 Hk E) in A1.
  assert (v2 = v1) as -> by (apply alone_iff in A1 as (? & ? & P & ->), A2 as (? & ? & Q & ->); congruence).
  exists (concat r1), (concat r2), v1. rewrite E1, E2, !nth_error_map, R1, R2. auto.
Qed.

(** ** C118 *)
Lemma sets_or_not l k : (exists v, last_setting l k v) \/ ~ sets l k.
Proof.
  induction l as [|[k0 v0] l IH]; [right; now intros [v []]|].
  destruct IH as [(v & a & b & -> & N)|N]; [left; exists v, ((k0, v0) :: a), b; auto|].
  destruct (str_eqb k0 k) eqn:E.
  - apply str_eqb_eq in E. subst. left. exists v0, [], l. split; auto. intros v' I. apply N. now exists v'.
  - right. intros [v [I|I]]; [injection I as -> ->; rewrite str_eqb_refl in E; discriminate|]. apply N. now exists v.
Qed.
Lemma user_says_total files kvs key default : exists text, user_says files kvs key default text.
Proof.
  destruct (sets_or_not kvs key) as [[v H]|N]; [exists v; now constructor|].
  assert (Q : (exists earlier f later text, files = earlier ++ f :: later /\ (forall f', In f' later -> ~ sets (cf_ruleConfigurations f') key)
               /\ last_setting (cf_ruleConfigurations f) key text) \/ forall f, In f files -> ~ sets (cf_ruleConfigurations f) key).
  { induction files as [|f fs IH]; [right; intros f []|].
    destruct IH as [(a & g & b & t & -> & Q & L)|Q]; [left; exists (f :: a), g, b, t; auto|].
    destruct (sets_or_not (cf_ruleConfigurations f) key) as [[v L]|Nf]; [left; exists [], f, fs, v; auto|].
    right. intros g [<-|I]; auto. }
  destruct Q as [(a & f & b & t & E & Q & L)|Q]; [exists t; now apply (us_file _ _ _ _ a f b)|].
  exists default. now constructor.
Qed.
Lemma rc_settings_det args kvs kvs' : Forall2 rc_setting args kvs -> Forall2 rc_setting args kvs' -> kvs' = kvs.
Proof.
  intros F F'. revert kvs' F'. induction F; intros kvs' F'; inversion F'; subst; auto.
  f_equal; auto. eapply rc_setting_det; eauto.
Qed.
Lemma given_in_force read yaml e cl s key default text : process read yaml e cl = Val s ->
  given read yaml e cl key default text -> in_force (os_cfg s) key default text.
Proof.
  intros P (L & kvs & F & U). unfold in_force.
  assert (Ns : ~ sets kvs key -> forall kvs', Forall2 rc_setting (cl_rc cl) kvs' -> ~ sets kvs' key).
  { intros N kvs' F'. now rewrite (rc_settings_det _ _ _ F F'). }
  destruct U as [text H|a f b text N E Hb H|N H].
  - eapply c17_command_line_setting_wins; eauto.
  - eapply c17_last_file_setting_wins; eauto.
  - eapply c17_default_when_never_set; eauto.
Qed.
(** The text in force for a key is the one the user gave. *)
Theorem c118_text_in_force : forall read yaml e cl s key default text, process read yaml e cl = Val s ->
  Forall (fun a => (Z.of_nat (length a) <= INT_MAX)%Z) (cl_rc cl) ->
  (in_force (os_cfg s) key default text <-> given read yaml e cl key default text).
Proof.
  intros read yaml e cl s key default text P L. split; [|now apply given_in_force].
  intros H. destruct (process_inv _ _ _ _ _ P) as (c & Hc & _). destruct (processRC_fold _ _ _ Hc L) as (kvs & F & _).
  destruct (user_says_total (config_files read yaml e) kvs key default) as [t U].
  assert (G : given read yaml e cl key default t) by (split; auto; exists kvs; auto).
  pose proof (given_in_force _ _ _ _ _ _ _ _ P G) as H'. unfold in_force in *. rewrite H in H'. injection H' as ->. exact G.
Qed.
(** A number in it is the limit. *)
Lemma given_limit read yaml e cl s key default text d T : process read yaml e cl = Val s ->
  given read yaml e cl key default text -> atoi default = Val d -> reads_as text T -> in_int T ->
  intForKey (os_cfg s) key d = Val (T, os_cfg s).
Proof.
  intros P G D R I. pose proof (given_in_force _ _ _ _ _ _ _ _ P G) as H.
  unfold in_force in H. rewrite stringForKey_get in H. rewrite intForKey_get. pose proof (atoi_reads _ _ R I) as A.
  destruct (cfg_get (os_cfg s) key) as [v|]; injection H as ->; [rewrite A; reflexivity|]. congruence.
Qed.
Theorem c118_number_in_force : forall read yaml e cl s key d text T, process read yaml e cl = Val s -> in_int d ->
  given read yaml e cl key (show_Z d) text -> reads_as text T -> in_int T ->
  intForKey (os_cfg s) key d = Val (T, os_cfg s).
Proof.
  intros read yaml e cl s key d text T P Id G R I. eapply given_limit; eauto.
  destruct (show_Z_reads d []) as (ws & sg & ds & rest & E & Q); [discriminate|]. rewrite app_nil_r in E.
  apply atoi_reads; auto. exists ws, sg, ds, rest. auto.
Qed.
(** The rules of the catalogue that compare with a number compare with the one the user gave. *)
Theorem c118_limit_by_name : forall read yaml e cl s x name key d about k sh text T vs,
  process read yaml e cl = Val s -> well_formed x ->
  In (name, limited (os_cfg s) key d about) (catalogue (os_cfg s) x) -> named k sh name -> in_int d ->
  given read yaml e cl key (show_Z d) text -> reads_as text T -> in_int T ->
  alone (os_cfg s) k x vs -> records x k sh (about T) vs.
Proof.
  intros read yaml e cl s x name key d about k sh text T vs P W I N Id G R It A.
  pose proof (c118_number_in_force _ _ _ _ _ _ _ _ _ P Id G R It) as L.
  destruct (c116_named_rule _ _ _ _ _ _ _ W I N A) as (decls & rss & kept & D & F & S & ->).
  exists decls, rss, kept. split; auto. split; auto. clear - F L.
  induction F as [|dn rs decls rss [(T' & c' & HT & H)|[Nv _]] F IH]; constructor; auto; [rewrite L in HT; injection HT as <- <-; exact H|destruct (Nv _ _ L)].
Qed.
(** These are twelve; the other two: *)
Theorem c118_limit_of_line : forall read yaml e cl s x k sh text T vs ls, process read yaml e cl = Val s ->
  named k sh $"long line" -> given read yaml e cl $"LONG_LINE" $"100" text -> reads_as text T -> in_int T ->
  u_path (main_unit x) <> [] -> lines_of (u_content (main_unit x)) ls ->
  (alone (os_cfg s) k x vs <->
   exists sel, sublist_where (fun l => (T < Z.of_nat (length (snd l)))%Z /\ ~ comment_on (main_unit x) (fst l)
                    /\ ~ in_suppressed_decl (main_unit x) $"long line" (fst l)) (numbered 1 ls) sel
     /\ vs = map (fun l => {| v_rule := Some k; v_path := u_path (main_unit x);
                              v_startLine := fst l; v_startColumn := 1;
                              v_endLine := fst l; v_endColumn := Z.of_nat (length (snd l));
                              v_message := $"Line with " ++ show_Z (Z.of_nat (length (snd l)))
                                           ++ $" characters exceeds limit of " ++ show_Z T |}) sel).
Proof.
  intros read yaml e cl s x k sh text T vs ls P N G R It Pth Hl.
  apply (c116_long_line _ (os_cfg s) T k x sh); auto. apply (given_limit read yaml e cl s _ $"100" text); auto.
Qed.
Theorem c118_limit_of_short_name : forall read yaml e cl s x k sh text T vs, process read yaml e cl = Val s -> well_formed x ->
  named k sh $"short variable name" -> given read yaml e cl $"SHORT_VARIABLE_NAME" $"3" text -> reads_as text T -> in_int T ->
  alone (os_cfg s) k x vs ->
  exists decls rs kept, examined x sh decls
    /\ (distinct_nodes decls -> exists sel,
          sublist_where (fun p => (exists name, short_name T (snd p) name) /\ ~ exempt T (fst p) (snd p)) (spots [] (all_nodes decls)) sel
          /\ Forall2 (fun p r => exists name, short_name T (snd p) name /\ r = Report (snd p) (length_message name name $"shorter" T)) sel rs)
    /\ sublist_where (recorded (cx_env x) (sh_attributeName sh)) rs kept
    /\ vs = map (violation_of (cx_env x) k) kept.
Proof.
  intros read yaml e cl s x k sh text T vs P W N G R It A.
  eapply (c116_short_variable_name (os_cfg s) x k sh vs T (os_cfg s)); auto. apply (given_limit read yaml e cl s _ $"3" text); auto.
Qed.
(** A run that succeeds with zero tolerance respects the limits the user gave. *)
Theorem c118_green_run_respects_limits : forall w i ev cl s rules sel xs,
  main (program w i) = (ev, Exit 0) -> w_cmdline w = Some cl -> process (w_read w) (w_yaml w) (w_env w) cl = Val s ->
  maxP1 s = 0%Z -> maxP2 s = 0%Z -> maxP3 s = 0%Z ->
  rules_loaded (program w i) s rules -> NoDup rules ->
  filteredRules shipped_env (os_filter s) (registry rules) = Val sel -> compiled i xs -> separate xs ->
  forall x kd text T decls d n m a b, In x xs -> well_formed x -> In (size_index kd) sel ->
  given (w_read w) (w_yaml w) (w_env w) cl (size_key kd) (show_Z (size_default kd)) text ->
  reads_as text T -> in_int T -> (kd = SParameters -> 0 <= T)%Z ->
  examined x (size_shipped kd) decls -> In d decls -> below d n -> measured kd n m a b ->
  (m <= T)%Z \/ ~ recorded (cx_env x) (sh_attributeName (size_shipped kd)) (Report n (a ++ show_Z m ++ b ++ $" exceeds limit of " ++ show_Z T)).
Proof.
  intros w i ev cl s rules sel xs M Hcl P M1 M2 M3 L Hd Hsel Hx Hs x kd text T decls d n m a b Ix W Ik G R It Hp D Id Hb Hm.
  eapply (c114_success_bounds_sizes w i ev s rules sel xs M); eauto; [now exists cl|].
  eapply c118_number_in_force; eauto. destruct kd; vm_compute; split; discriminate.
Qed.
(** The method of 60 lines again: silent at 60, unmoved by other keys. *)
Example c117_case :
  In ($"LONG_METHOD", $"50") (sh_reads sh_LongMethod) /\ nth_error shipped_rules 63 = Some sh_LongMethod
  /\ In ($"NPATH_COMPLEXITY", $"200") (sh_reads sh_NPathComplexity)
  /\ (exists v, alone cfg_fresh 63 ex_y [v] /\ alone (addConfiguration cfg_fresh $"NPATH_COMPLEXITY" $"1") 63 ex_y [v])
  /\ alone (addConfiguration cfg_fresh $"LONG_METHOD" $"60") 63 ex_y []
  /\ same_settings sh_LongMethod (addConfiguration cfg_fresh $"LONG_METHOD" $"50") (addConfiguration cfg_fresh $"LONG_LINE" $"7").
Proof.
  split; [left; reflexivity|]. split; [reflexivity|]. split; [left; reflexivity|]. split.
  - eexists. split; apply alone_iff; do 2 eexists; split; vm_compute; reflexivity.
  - split; [apply alone_iff; do 2 eexists; split; vm_compute; reflexivity|].
    intros key d t [E|[]] H. injection E as <- <-. apply in_force_iff in H. apply in_force_iff. vm_compute in H |- *. exact H.
Qed.
Definition exs_cl (rc : list str) : cmdline :=
  {| cl_output := None; cl_reportType := None; cl_R := [$"/r"]; cl_rc := rc;
     cl_rule := []; cl_disableRule := []; cl_maxP1 := Some 0%Z; cl_maxP2 := Some 0%Z; cl_maxP3 := Some 0%Z;
     cl_globalAnalysis := None; cl_clangChecker := None; cl_duplications := None |}.
(** Exit 0 at 60, 5 at 59; the last of two settings counts. *)
Example c118_case :
  (exists ev s, let w := with_cmdline (ex_world [63]) (exs_cl [$"LONG_METHOD=1"; $"LONG_METHOD= 60 lines"]) in
     main (program w (ex_inputs ex_x ex_y)) = (ev, Exit 0)
     /\ process (w_read w) (w_yaml w) (w_env w) (exs_cl [$"LONG_METHOD=1"; $"LONG_METHOD= 60 lines"]) = Val s
     /\ rules_loaded (program w (ex_inputs ex_x ex_y)) s [63] /\ In (size_index SMethodLines) [63]
     /\ given (w_read w) (w_yaml w) (w_env w) (exs_cl [$"LONG_METHOD=1"; $"LONG_METHOD= 60 lines"]) $"LONG_METHOD" $"50" $" 60 lines"
     /\ reads_as $" 60 lines" 60 /\ in_int 60)
  /\ (exists ev, main (program (with_cmdline (ex_world [63]) (exs_cl [$"LONG_METHOD=59"])) (ex_inputs ex_x ex_y)) = (ev, Exit 5)).
Proof.
  split; [|eexists; vm_compute; reflexivity].
  assert (M : exists ev, main (program (with_cmdline (ex_world [63]) (exs_cl [$"LONG_METHOD=1"; $"LONG_METHOD= 60 lines"])) (ex_inputs ex_x ex_y)) = (ev, Exit 0)) by (eexists; vm_compute; reflexivity).
  destruct M as [ev M]. exists ev. destruct (main_exit _ _ _ M) as [X _]. remember 0%Z as z eqn:E in X. destruct X; try discriminate E.
  exists s. cbn zeta. split; auto. destruct H as (cl & Hcl & Hp). cbn [w_cmdline program with_cmdline] in Hcl. injection Hcl as <-.
  split; [exact Hp|].
  vm_compute in Hp. injection Hp as <-.
  split.
  { assert (rules = [63]) as ->; [|assumption].
    destruct H0 as (ps & As & _ & R & _). rewrite (asked_det _ _ _ As) in R.
    match type of As with asked ?w (rulesPath _ ?s) _ =>
      assert (L : exists ls, consumeArgRulesPath w (rulesPath (w_env w) s) l_initial = (ls, Val tt) /\ l_rules ls = Some [Some 63])
        by (eexists; split; vm_compute; reflexivity) end.
    destruct L as (ls & L & L'). destruct (rules_loaded_intro _ _ _ L) as (rules' & Er & R' & _).
    rewrite (registered_det _ _ _ _ R R'). rewrite L', registry_eq in Er.
    destruct rules' as [|a [|b rest]]; cbn in Er; try discriminate Er. injection Er as <-. reflexivity. }
  split; [left; reflexivity|]. split; [|split; [|vm_compute; split; discriminate]].
  - clear. split; [repeat constructor; vm_compute; discriminate|]. exists [($"LONG_METHOD", $"1"); ($"LONG_METHOD", $" 60 lines")]. split.
    + constructor; [|constructor; [|constructor]]; right; do 2 eexists; (split; [|split; [|reflexivity]]);
        [reflexivity|vm_compute; intuition discriminate|reflexivity|vm_compute; intuition discriminate].
    + constructor. exists [($"LONG_METHOD", $"1")], []. split; auto.
  - clear. exists $" ", [], $"60", $" lines". repeat split; try (repeat constructor; fail); try discriminate.
    + intros c r [= <- <-]. reflexivity.
Qed.
Print Assumptions c117_own_settings_only.
Print Assumptions c117_foreign_key.
Print Assumptions c117_another_rules_key.
Print Assumptions c117_default_spelled_out.
Print Assumptions c117_runs_agree.
Print Assumptions c118_text_in_force.
Print Assumptions c118_number_in_force.
Print Assumptions c118_limit_by_name.
Print Assumptions c118_limit_of_line.
Print Assumptions c118_limit_of_short_name.
Print Assumptions c118_green_run_respects_limits.
