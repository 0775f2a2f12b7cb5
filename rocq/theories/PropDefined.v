(** * What can crash or abort an analysis: C128 *)
From Verif Require Import Base BaseFacts ModelResults ModelConfig ModelFilter ModelOptions ModelMain ModelDriver
  ModelSource ModelAST ModelRules ModelRulesBasic ModelRulesConvention ModelRulesNullCheck
  ModelRulesRedundant ModelRulesVars ModelRulesObjC ModelReporters ModelRuleTable ModelProgram
  SpecResults SpecConfig SpecFilter SpecOptions SpecMain SpecAST SpecSource SpecExec SpecRules SpecRulesRedundant SpecRulesVars SpecRulesObjC SpecReporters SpecDriver SpecProgram SpecCatalogue SpecSettings SpecDefined
  ProofConfig ProofFilter ProofOptions ProofMain ProofAST ProofSource ProofRules ProofRulesVars ProofRulesObjC ProofReporters ProofDriver ProofProgram ProofDefined
  PropConfig PropOptions PropMain PropDriver PropAST PropRules PropRulesVars PropRulesObjC PropRuleTable PropReporters PropProgram PropCatalogue PropSettings PropMessages.
From Coq Require Import Lia.
Local Arguments lit : simpl never.

(** ** One rule on one unit *)
Lemma completes c k s x decls st : well_formed x -> nth_error shipped_rules k = Some s ->
  examined x s decls -> unproblematic c s x decls -> exists vs st', takeoff c k x st = Val (vs, st').
Proof.
  intros W K D U. destruct (named_row k s (sh_name s) (conj K eq_refl)) as [b Hb].
  pose proof rows_fine as F. rewrite Forall_forall in F. specialize (F _ (nth_error_In _ _ Hb)). cbn [row_fine] in F.
  pose proof (roots_examined x s decls W D) as R.
  assert (B : b = BLines \/ b <> BLines) by (destruct b; auto; right; discriminate). destruct B as [->|B].
  - unfold takeoff. rewrite Hb. destruct (u_content (main_unit x)) as [|a l] eqn:E.
    + unfold main_unit in E. unfold LongLine_apply. rewrite E. cbn. eauto.
    + destruct (F c x decls U) as [T Q]; [congruence|].
      destruct (lines_val c (e_unit (cx_env x)) k T Q [] (r_cache st)) as [r ->]. cbn [obind]. eauto.
  - apply (takeoff_val c k x st s b Hb B). rewrite R. destruct b; cbn [calls]; eauto; try congruence.
    + destruct (each_all (rule c x) decls) as [rs E]; [intros d Hd; eapply F; eauto|]. rewrite E. cbn [obind]. eauto.
    + destruct (set_up x s) eqn:P; [|eauto]. apply set_up_iff in P. destruct (F c x decls U P) as [rs ->]. cbn [obind]. eauto.
Qed.
Lemma early_names s b : In (s, b) shipped_behaviours -> In (sh_name s) reads_early -> exists rule, b = BSetUp rule.
Proof.
  assert (A : Forall (fun p => In (sh_name (fst p)) reads_early -> exists rule, snd p = BSetUp rule) shipped_behaviours).
  { unfold shipped_behaviours. repeat match goal with |- Forall _ (_ :: _) => apply Forall_cons | |- Forall _ [] => apply Forall_nil end; cbn [fst snd];
      (intros H; first [eexists; reflexivity|by_name H]). }
  rewrite Forall_forall in A. intros I. exact (A _ I).
Qed.
(** The defaults fit, so settings matter only if the user gives one. *)
Theorem c128_defaults_fit : forall c s, In s shipped_rules ->
  (forall key default, numeric s key default -> in_force c key default default) -> settings_fit c s.
Proof.
  assert (G : forall s, In s shipped_rules -> forall key default z, In (key, default) (sh_reads s) -> reads_as default z -> in_int z).
  { assert (Q : Forall (fun s => forallb (fun kd => match atoi (snd kd) with Val _ => true | _ => false end) (sh_reads s) = true) shipped_rules)
      by (apply Forall_forall; rewrite <- forallb_forall; vm_compute; reflexivity).
    intros s I key default z J R. rewrite Forall_forall in Q. specialize (Q s I). rewrite forallb_forall in Q. specialize (Q _ J). cbn [snd] in Q.
    rewrite (atoi_value default z R) in Q. destruct (in_intb z) eqn:E; [now apply in_intb_iff|discriminate]. }
  intros c s I H key default T N (text & F & R). specialize (H key default N). unfold in_force in *. rewrite F in H. injection H as ->.
  destruct N as [J _]. destruct R as [R|[_ ->]]; [eapply G; eauto|]. unfold in_int, INT_MIN, INT_MAX. lia.
Qed.
(** Conversely: a setting outside int is undefined behaviour as soon as the rule reads it, ... *)
Lemma line_row k s b : nth_error shipped_behaviours k = Some (s, b) -> sh_name s = $"long line" -> b = BLines.
Proof.
  intros Hb E. destruct (c116_one_rule_per_name _ _ _ _ _ (row_named k s b Hb) (eq_ind _ (fun n => named 62 sh_LongLine n) (row_named 62 sh_LongLine BLines eq_refl) _ (eq_sym E))) as [-> ->].
  cbn in Hb. congruence.
Qed.
Theorem c128_oversized_setting : forall c k s x decls st key default T, well_formed x -> nth_error shipped_rules k = Some s ->
  examined x s decls -> numeric s key default -> stands_for c key default T -> ~ in_int T ->
  looks s x decls -> takeoff c k x st = UB.
Proof.
  intros c k s x decls st key default T W K D N S O L. destruct (named_row k s (sh_name s) (conj K eq_refl)) as [b Hb].
  pose proof rows_trip as F. rewrite Forall_forall in F. specialize (F _ (nth_error_In _ _ Hb) c key default T N S O). cbn beta iota in F.
  pose proof (roots_examined x s decls W D) as R.
  destruct L as [[L P]|[[L P]|(d & n & Hd & Hn & C)]].
  - destruct (early_names s b (nth_error_In _ _ Hb) L) as [rule ->]. apply (takeoff_fails c k x st s _ Hb); [discriminate|].
    apply set_up_iff in P. cbn [calls]. rewrite P. destruct F as [_ F]. now rewrite F.
  - pose proof (line_row k s b Hb L); subst b. unfold takeoff. rewrite Hb. rewrite lines_ub by auto. reflexivity.
  - assert (B : b <> BLines).
    { intros ->. assert (E : str_eqb (sh_name s) $"long line" = true).
      { assert (A : forallb (fun p => match snd p with BLines => str_eqb (sh_name (fst p)) $"long line" | _ => true end) shipped_behaviours = true) by (vm_compute; reflexivity).
        rewrite forallb_forall in A. exact (A _ (nth_error_In _ _ Hb)). }
      apply str_eqb_eq in E. rewrite E in C. unfold compares in C. cbn [In] in C.
      repeat (destruct C as [[C _]|C]; [by_name C|]). destruct C as [C _]. by_name C. }
    apply (takeoff_fails c k x st s b Hb B). rewrite R. destruct b; try contradiction; cbn [calls].
    + destruct (F x) as [F1 F2]. rewrite (each_fails (rule c x) decls UB); [reflexivity|discriminate|auto|]. exists d. split; auto. eapply F2; eauto.
    + destruct F as [E _]. exfalso. unfold reads_early in E. cbn [In] in E. unfold compares in C. cbn [In] in C.
      repeat (destruct E as [E|E]; [rewrite <- E in C; repeat (destruct C as [[C _]|C]; [by_name C|]); destruct C as [C _]; by_name C|]). destruct E.
    + eapply F; eauto.
Qed.
Lemma checked_fails c k s x decls st rule bad : well_formed x -> nth_error shipped_behaviours k = Some (s, BChecked rule) ->
  examined x s decls -> failure bad -> (forall d, In d decls -> (exists r, rule c x d = Val r) \/ rule c x d = bad) ->
  (exists d, In d decls /\ rule c x d = bad) ->
  match bad with Val _ => False | Exc m => takeoff c k x st = Exc m | UB => takeoff c k x st = UB end.
Proof.
  intros W K D B H E. pose proof (roots_examined x s decls W D) as R.
  destruct (takeoff_fails c k x st s _ K ltac:(discriminate)) as [F1 F2]. rewrite R in F1, F2. cbn [calls] in F1, F2.
  rewrite (each_fails (rule c x) decls bad B H E) in F1, F2. destruct bad as [a|m|]; [destruct (B a eq_refl)|apply F2; reflexivity|apply F1; reflexivity].
Qed.
Lemma row_at k s name rule s' : named k s name -> (exists k', nth_error shipped_behaviours k' = Some (s', BChecked rule) /\ sh_name s' = name) ->
  nth_error shipped_behaviours k = Some (s, BChecked rule).
Proof.
  intros N (k' & H & E). pose proof (row_named k' s' _ H) as N'. rewrite E in N'. destruct (c116_one_rule_per_name _ _ _ _ _ N N') as [-> ->]. exact H.
Qed.
(** ... and so is a function with more paths than an int can count, ... *)
Theorem c128_too_many_paths : forall c k s x decls st body, well_formed x -> named k s $"high npath complexity" ->
  examined x s decls -> body_in decls body -> uncountable body -> takeoff c k x st = UB.
Proof.
  intros c k s x decls st body W N D (d & n & Hd & Hn & Hb & Cb) Un.
  pose proof (row_at k s _ (fun c _ => NPathComplexityRule c) sh_NPathComplexity N (ex_intro _ 64 (conj eq_refl eq_refl))) as K.
  destruct (stands_total c $"NPATH_COMPLEXITY" $"200") as [T St].
  pose proof (stands_int c $"NPATH_COMPLEXITY" $"200" 200 T ltac:(vm_compute; reflexivity) St) as E.
  unfold NPathComplexityRule in K. set (limit := obind (intForKey c $"NPATH_COMPLEXITY" 200) (fun t => Val (fst t))).
  assert (Nl : no_exc limit) by (unfold limit; rewrite E; destruct (in_intb T); exact I).
  destruct (outcome_mixed (NPathComplexity_visit limit)) as [M1 M2]; [intros m; now apply npath_node_cases|].
  refine (checked_fails c k s x decls st _ UB W K D ltac:(discriminate) _ _); cbn beta.
  - intros d' _. apply M1.
  - exists d. split; auto. apply (M2 d n Hn). apply (npath_node_fails limit n body); auto. now apply uncountable_ub.
Qed.
(** ... and calling a protected method that a protocol declares. *)
Theorem c128_protocol_method : forall c k s x decls st, well_formed x -> named k s $"calling protected method" ->
  examined x s decls -> classless_in decls -> takeoff c k x st = UB.
Proof.
  intros c k s x decls st W N D (d & n & Hd & Hn & C).
  pose proof (row_at k s _ (fun _ _ => reports_outcome ProtectedMethod_visit) sh_ObjCVerifyProtectedMethod N (ex_intro _ 20 (conj eq_refl eq_refl))) as K.
  assert (Q : forall m, (exists r, ProtectedMethod_visit m = Val r) \/ ProtectedMethod_visit m = UB).
  { intros m. destruct (protected_node m) as [[_ (rs & E & _)]|[_ E]]; eauto. }
  destruct (outcome_mixed ProtectedMethod_visit Q) as [M1 M2].
  refine (checked_fails c k s x decls st _ UB W K D ltac:(discriminate) _ _).
  - intros d' _. apply M1.
  - exists d. split; auto. apply (M2 d n Hn). destruct (protected_node n) as [[Nc _]|[_ E]]; [tauto|exact E].
Qed.
Lemma long_everywhere T d : reports_outcome (fun n => if isVarDecl n then LongVariableName_visit T n else Val []) d = reports_outcome (LongVariableName_visit T) d.
Proof. apply outcome_ext. intros n. unfold isVarDecl, LongVariableName_visit. destruct (n_shape n); reflexivity. Qed.
(** With a limit below -8 a variable name of one or two characters may make the rule on long
    names throw; with a limit near the largest int, a name beyond it is undefined behaviour. *)
Theorem c128_names : forall c k s x decls st T name, well_formed x -> named k s $"long variable name" ->
  examined x s decls -> stands_for c $"LONG_VARIABLE_NAME" $"20" T -> in_int T -> name_in decls name ->
  ((T + 10 < size name < 3)%Z -> takeoff c k x st = Exc $"basic_string::substr")
  /\ ((INT_MAX - 10 < T < size name)%Z -> takeoff c k x st = UB).
Proof.
  intros c k s x decls st T name W N D St It (d & n & Hd & Hn & V).
  pose proof (row_at k s _ (fun c _ => LongVariableNameRule c) sh_LongVariableName N (ex_intro _ 51 (conj eq_refl eq_refl))) as K.
  pose proof (stands_int c $"LONG_VARIABLE_NAME" $"20" 20 T ltac:(vm_compute; reflexivity) St) as E.
  rewrite (proj2 (in_intb_iff T) It) in E.
  assert (X : forall bad, failure bad -> (forall m, (exists r, LongVariableName_visit T m = Val r) \/ LongVariableName_visit T m = bad) ->
    LongVariableName_visit T n = bad ->
    match bad with Val _ => False | Exc m => takeoff c k x st = Exc m | UB => takeoff c k x st = UB end).
  { intros bad B Q F. refine (checked_fails c k s x decls st _ bad W K D B _ _).
    - intros d' _. unfold LongVariableNameRule. rewrite E. cbn [obind fst]. rewrite long_everywhere.
      assert (C : (forall m, In m (nodes d') -> exists r, LongVariableName_visit T m = Val r) \/ exists m, In m (nodes d') /\ LongVariableName_visit T m = bad).
      { clear - Q. induction (nodes d') as [|m l IH]; [left; intros ? []|]. destruct (Q m) as [V|V]; [|right; exists m; split; [now left|auto]].
        destruct IH as [IH|(m' & I & U)]; [left; intros m' [<-|I]; auto|right; exists m'; split; [now right|auto]]. }
      destruct C as [C|(m & I & U)].
      + left. apply outcome_all. intros m Hm. apply C. now apply in_nodes.
      + right. apply outcome_fails; auto. exists m. split; auto. now apply in_nodes.
    - exists d. split; auto. unfold LongVariableNameRule. rewrite E. cbn [obind fst]. rewrite long_everywhere. apply outcome_fails; auto. eauto. }
  unfold in_int in It. split; intros L.
  - refine (X (Exc $"basic_string::substr") ltac:(discriminate) _ _).
    + intros m. destruct (long_node_cases T m It) as [Y|[[_ Y]|[Y _]]]; [left; exact Y|right; exact Y|exfalso; unfold INT_MAX in *; lia].
    + apply (long_node_throws T n name); [unfold INT_MAX in *; lia|exact V|exact L].
  - refine (X UB ltac:(discriminate) _ _).
    + intros m. destruct (long_node_cases T m It) as [Y|[[Y _]|[_ Y]]]; [left; exact Y|exfalso; lia|right; exact Y].
    + apply (long_node_overflows T n name); [lia|exact V|lia].
Qed.

(** These are the only ways: a rule completes, whatever ran before, exactly if nothing of this
    kind is there. *)
Lemma displayable_dec T name : displayable T name \/ (T + 10 < size name < 3)%Z \/ (INT_MAX - 10 < T < size name)%Z.
Proof. unfold displayable. lia. Qed.
Theorem c128_rule_completes_iff : forall c k s x decls st, well_formed x -> nth_error shipped_rules k = Some s -> examined x s decls ->
  ((exists vs st', takeoff c k x st = Val (vs, st')) <-> unproblematic c s x decls).
Proof.
  intros c k s x decls st W K D. split; [|eapply completes; eauto].
  intros (vs & st' & E).
  assert (F : looks s x decls -> settings_fit c s).
  { intros L key default T N S. destruct (in_intb T) eqn:B; [now apply in_intb_iff|]. exfalso.
    rewrite (c128_oversized_setting c k s x decls st key default T W K D N S) in E; [discriminate| |exact L].
    intros X. apply in_intb_iff in X. congruence. }
  split; [exact F|]. split; [|split].
  - intros N body B U. rewrite (c128_too_many_paths c k s x decls st body W (conj K N) D B U) in E. discriminate.
  - intros N T name S I. destruct (displayable_dec T name) as [Y|Y]; auto. exfalso.
    assert (IT : in_int T).
    { refine (F _ $"LONG_VARIABLE_NAME" $"20" T _ S).
      - destruct I as (d & n & Hd & Hn & V). apply (compares_looks s x decls d n Hd Hn). rewrite N. do 5 right. split; [cbn; tauto|now exists name].
      - pose proof (c116_one_rule_per_name _ _ _ _ _ (conj K N) (row_named 51 sh_LongVariableName _ eq_refl)) as [_ ->].
        apply (is_numeric _ _ _ 20); [left; reflexivity|vm_compute; reflexivity|discriminate]. }
    destruct (c128_names c k s x decls st T name W (conj K N) D S IT I) as [X1 X2].
    destruct Y as [Y|Y]; [rewrite (X1 Y) in E|rewrite (X2 Y) in E]; discriminate.
  - intros N C. rewrite (c128_protocol_method c k s x decls st W (conj K N) D C) in E. discriminate.
Qed.

(** ** A run *)
(** The analysis of a run completes exactly if every rule completes on every unit; neither the
    order nor what ran before matters. *)
Theorem c128_run_completes_iff : forall i s rules xs, compiled i xs -> enableClangChecker s = false ->
  ((exists c, driver_of i s rules = (c, Val tt)) <-> forall x k, In x xs -> In k rules -> exists vs, alone (os_cfg s) k x vs).
Proof.
  intros i s rules xs Hx Hk. split.
  - intros (c & D) x k Ix Ik. unfold driver_of in D. destruct (ModelDriver.run _ _ _ _ _ _ _ _ _) as [c1 [st'|m|]] eqn:R; cbn [obind] in D; try discriminate.
    apply run_inv in R as (frs & cwd' & all & Uc & Ur & _).
    assert (Hx' : compiled i (flat_map goodb frs)) by (exists frs, cwd'; split; [exact Uc|now apply good_units_iff]).
    rewrite (compiled_det i _ _ Hx' Hx) in Ur. destruct (units_run_each _ _ _ _ _ _ Ur x k Ix Ik) as (vs & st & E).
    exists (recordable vs). apply alone_iff. eauto.
  - intros Ha. destruct (units_run_exists (os_cfg s) rules xs) with (st := r_initial) as (all & st' & Ur).
    { intros x k Ix Ik. destruct (Ha x k Ix Ik) as [vs A]. apply alone_iff in A as (v0 & st & E & _). eauto. }
    destruct Hx as (frs & cwd & Uc & G).
    destruct (c34_rules_run_on_good_units _ _ (in_tools i) (takeoff (os_cfg s)) rules (enableGlobalAnalysis s) (in_sources i)
                c_empty (in_cwd i) r_initial frs cwd xs all st' Uc G Ur) as (c' & _ & _ & R & _).
    exists c'. unfold driver_of. rewrite Hk, R. reflexivity.
Qed.
(** So it completes exactly if nothing in the units can trip any of the rules. *)
Theorem c128_run_completes : forall i s rules xs, compiled i xs -> enableClangChecker s = false -> (forall x, In x xs -> well_formed x) ->
  ((exists c, driver_of i s rules = (c, Val tt)) <-> all_unproblematic (os_cfg s) rules xs).
Proof.
  intros i s rules xs Hx Hk W. rewrite (c128_run_completes_iff i s rules xs Hx Hk). split.
  - intros H x k Ix Ik. destruct (H x k Ix Ik) as [vs A]. apply alone_iff in A as (v0 & st & E & _).
    assert (Kr : exists sh, nth_error shipped_rules k = Some sh).
    { unfold takeoff in E. destruct (nth_error shipped_behaviours k) as [[sh b]|] eqn:Hb; [|discriminate E].
      exists sh. exact (proj1 (row_named k sh b Hb)). }
    destruct Kr as [sh K]. destruct (examined_exists x sh) as (decls & D & _). exists sh, decls. split; auto. split; auto.
    apply (c128_rule_completes_iff (os_cfg s) k sh x decls r_initial (W x Ix) K D). eauto.
  - intros U x k Ix Ik. destruct (U x k Ix Ik) as (sh & decls & K & D & P).
    apply (c128_rule_completes_iff (os_cfg s) k sh x decls r_initial (W x Ix) K D) in P as (vs & st & E).
    exists (recordable vs). apply alone_iff. eauto.
Qed.
(** ** The program *)
(** With them, the program ends with an exit code; and if the analysis is unproblematic, that
    code is not 3. *)
Theorem c128_program_exits : forall w i xs,
  (forall cl, w_cmdline w = Some cl -> Forall (fun a => (Z.of_nat (length a) <= INT_MAX)%Z) (cl_rc cl)) ->
  (forall p o, w_replib w p = Some o -> exists r, o = Some r /\ shipped_reporter r) ->
  (forall s, options_are (program w i) s -> enableClangChecker s = false) -> compiled i xs -> (forall x, In x xs -> well_formed x) ->
  (forall s rules sel, options_are (program w i) s -> rules_loaded (program w i) s rules ->
     filteredRules shipped_env (os_filter s) (registry rules) = Val sel -> all_unproblematic (os_cfg s) sel xs) ->
  exists ev n, main (program w i) = (ev, Exit n) /\ n <> 3%Z.
Proof.
  intros w i xs Hrc Hrep Hck Hx Hwf Hall.
  assert (Dr : forall s sel, options_are (program w i) s -> w_driver (program w i) sel = driver_of i s sel).
  { intros s sel (cl & Hcl & Hp). cbn in *. now rewrite Hcl, Hp. }
  assert (Ok : forall s rules sel, options_are (program w i) s -> rules_loaded (program w i) s rules ->
     filteredRules shipped_env (os_filter s) (registry rules) = Val sel -> exists c, w_driver (program w i) sel = (c, Val tt)).
  { intros s rules sel O L F. rewrite (Dr s sel O). apply (c128_run_completes i s sel xs); eauto. }
  destruct (main_returns_sel (program w i)) as (ev & n & M).
  - exact Hrc.
  - intros p. cbn. intros E. destruct (Hrep p None E) as (r & X & _). discriminate.
  - intros s rules sel O L F. destruct (Ok s rules sel O L F) as (c & E). rewrite E. cbn [fst snd].
    assert (An : analysed (program w i) s rules c) by (exists sel; auto).
    destruct (presented shipped_env (allowDuplicatedViolations s) c) as [V P].
    pose proof (c127_every_violation_has_a_rule w i s rules c V O An P) as Rv.
    split; [discriminate|]. split.
    + intros _ v Iv. rewrite (Dr s sel O) in E. pose proof (c127_messages i s sel c xs E Hx) as F2. clear - F2 Iv.
      apply in_concat in Iv as (vs & I1 & I2). induction F2 as [|x us xs cs H F2 IH]; [destruct I1|]. destruct I1 as [->|I1]; auto.
      rewrite Forall_forall in H. destruct (H v I2) as (_ & _ & k & _ & ->). discriminate.
    + intros r c' Fr E'. injection E' as <-. intros S.
      destruct Fr as (es & vs & _ & _ & PK). apply picks_in in PK as [p Hp]. cbn in Hp. destruct (Hrep p _ Hp) as (r' & X & Sr). injection X as <-.
      destruct Sr as [->|[->|[->|[(now & ->)|[(head & now & ->)|(t & Y & ->)]]]]].
      * apply (text_exact shipped_env _ _ V) in S; auto. discriminate.
      * apply (xcode_exact shipped_env _ _ V) in S; auto. discriminate.
      * apply (pmd_exact shipped_env _ _ V) in S; auto. discriminate.
      * apply (json_exact shipped_env now _ _ V) in S; auto. discriminate.
      * apply (html_exact head now shipped_env _ _ V) in S; auto. discriminate.
      * apply (xml_exact shipped_env t Y _ _ V) in S; auto. discriminate.
  - exists ev, n. split; auto. intros ->. destruct (main_exit _ _ _ M) as [X _].
    inversion X as [| | |s rules r O L Fr Na| | | |]; subst.
    pose proof (filteredRules_eq shipped_env (os_filter s) rules) as F. destruct (Ok s rules _ O L F) as (c & E).
    apply (Na c). eexists. split; [exact F|exact E].
Qed.

(** ** Paths, whatever the switches look like *)
Theorem c49_overflow_exactly : forall n v, paths n v -> (uncountable n /\ nPath n = UB) \/ (~ uncountable n /\ nPath n = Val v).
Proof.
  intros n v P. apply paths_npZ in P. subst v. pose proof (no_exc_npath n) as N. destruct (nPath n) as [v| |] eqn:E; [right|contradiction|left].
  - split; [|f_equal; now apply nPath_val]. intros U. apply uncountable_ub in U. congruence.
  - split; auto. now apply ub_uncountable.
Qed.
(** Thirty-one conditionals and then a switch without labels: the number is 0, and yet it
    cannot be computed; with the switch first, it can. *)
Example c49_exactly_case : let many := map (fun i => nd i (IfStmt [] (var i) (nd i NullStmt) None)) (seq 0 31) in
  let none := nd 100 (SwitchStmt [] (var 101) (nd 102 (CompoundStmt [])) false) in
  paths (nd 1 (CompoundStmt (many ++ [none]))) 0 /\ uncountable (nd 1 (CompoundStmt (many ++ [none])))
  /\ paths (nd 1 (CompoundStmt (none :: many))) 0 /\ ~ uncountable (nd 1 (CompoundStmt (none :: many))).
Proof.
  cbv zeta. split; [apply paths_iff; vm_compute; reflexivity|]. split; [apply ub_uncountable; vm_compute; reflexivity|].
  split; [apply paths_iff; vm_compute; reflexivity|]. intros U. apply uncountable_ub in U. vm_compute in U. discriminate.
Qed.
Print Assumptions c49_overflow_exactly.

(** ** In terms of the code analysed *)
Theorem c128_modest_code : forall c rules xs, (forall s, In s shipped_rules -> settings_fit c s) ->
  (forall k, In k rules -> k < length shipped_rules) -> (forall x, In x xs -> modest c x) -> all_unproblematic c rules xs.
Proof.
  intros c rules xs F K M x k Ix Ik. destruct (M x Ix) as (W & B & N & C).
  destruct (nth_error shipped_rules k) as [s|] eqn:E; [|apply nth_error_None in E; specialize (K k Ik); lia].
  destruct (examined_exists x s) as (decls & D & _). exists s, decls. split; auto. split; auto.
  assert (Sub : forall d, In d decls -> In d (map snd (cx_tops x))).
  { intros d Hd. rewrite <- (roots_examined x s decls W D) in Hd. apply roots_of_tops in Hd as (t & I). apply in_map_iff. exists (t, d). auto. }
  split; [intros _; apply F; eapply nth_error_In; eauto|]. split; [|split].
  - intros _ body (d & n & Hd & H). apply B. exists d, n. split; auto.
  - intros _ T name St (d & n & Hd & H). apply (N T); auto. exists d, n. split; auto.
  - intros _ (d & n & Hd & H). apply C. exists d, n. split; auto.
Qed.

(** ** Cases *)
Lemma ex_modest o path commented : modest cfg_fresh (ex_ctx path o commented).
Proof.
  split; [vm_compute; repeat constructor; auto|].
  assert (Q : forall d n, In d (map snd (cx_tops (ex_ctx path o commented))) -> below d n -> In n (nodes (ex_tree o))).
  { intros d n I B. cbn in I. destruct I as [<-|[]]. now apply in_nodes. }
  split; [|split].
  - intros body (d & n & Hd & Hn & Hb & Cb). specialize (Q d n Hd Hn). cbn in Q.
    assert (Eb : exists l, body = nd (o + 1) (CompoundStmt l) /\ l = [nd (o + 2) (ForStmt (Some (nd (o + 3) (DeclStmt [ex_decl (o + 4) $"i"]))) [] None None (nd (o + 5) NullStmt));
       nd (o + 6) (GotoStmt $"L"); nd (o + 7) (DeclStmt [ex_decl (o + 8) $"j"])]).
    { repeat (destruct Q as [Q|Q]; [subst n; destruct Hb as [(f & ps & X)|(m & ps & X)]; cbn in X; try discriminate X; injection X as _ _ <-; eauto|]). destruct Q. }
    destruct Eb as (l & -> & ->). intros U. apply uncountable_ub in U. vm_compute in U. discriminate.
  - intros T name St (d & n & Hd & Hn & v & i & E & <-). specialize (Q d n Hd Hn). cbn in Q.
    assert (S20 : stands_for cfg_fresh $"LONG_VARIABLE_NAME" $"20" 20).
    { exists $"20". split; [reflexivity|]. left. apply (show_Z_reads 20 []). intros c r X. discriminate X. }
    rewrite (stands_unique _ _ _ _ _ St S20). left.
    repeat (destruct Q as [Q|Q]; [subst n; cbn in E; try discriminate E; injection E as <- _; vm_compute; discriminate|]). destruct Q.
  - intros (d & n & Hd & Hn & oc & m & i & (k & E & _) & _). specialize (Q d n Hd Hn). cbn in Q.
    repeat (destruct Q as [Q|Q]; [subst n; cbn in E; try discriminate E|]). destruct Q.
Qed.
(** All 72 rules, two files, default settings. *)
Example c128_case : all_unproblematic cfg_fresh (seq 0 72) [ex_x; ex_y] /\ compiled (ex_inputs ex_x ex_y) [ex_x; ex_y].
Proof.
  split; [|apply ex_compiled]. apply c128_modest_code.
  - intros s I. apply c128_defaults_fit; auto. intros key default _. reflexivity.
  - intros k I. apply in_seq in I. cbn in *. lia.
  - intros x [<-|[<-|[]]]; apply ex_modest.
Qed.
(** And what goes wrong: a limit of 99999999999, and one of -10. *)
Definition ex_big : cfg := addConfiguration cfg_fresh $"LONG_METHOD" $"99999999999".
Definition ex_low : cfg := addConfiguration cfg_fresh $"LONG_VARIABLE_NAME" $"-10".
Lemma ex_stands key default n : stands_for (addConfiguration cfg_fresh key (show_Z n)) key default n.
Proof.
  exists (show_Z n). split; [apply in_force_iff; unfold get_or; rewrite get_add, str_eqb_refl; reflexivity|]. left.
  rewrite <- (app_nil_r (show_Z n)). apply show_Z_reads. intros c r X. discriminate X.
Qed.
Example c128_bad_settings :
  (numeric sh_LongMethod $"LONG_METHOD" $"50" /\ stands_for ex_big $"LONG_METHOD" $"50" 99999999999 /\ takeoff ex_big 63 ex_x r_initial = UB)
  /\ (stands_for ex_low $"LONG_VARIABLE_NAME" $"20" (-10) /\ takeoff ex_low 51 ex_x r_initial = Exc $"basic_string::substr").
Proof.
  split; [split; [|split]|split].
  - apply (is_numeric _ _ _ 50); [left; reflexivity|vm_compute; reflexivity|discriminate].
  - exact (ex_stands $"LONG_METHOD" $"50" 99999999999).
  - vm_compute. reflexivity.
  - exact (ex_stands $"LONG_VARIABLE_NAME" $"20" (-10)).
  - vm_compute. reflexivity.
Qed.
(** On a unit without declarations: an oversized limit for classes is read all the same, one
    for methods is not. *)
Definition ex_none : tuctx :=
  {| cx_env := cx_env ex_x; cx_lang := cx_lang ex_x; cx_tops := [];
     cx_evaluate := fun _ => None; cx_lines := fun _ => 1%Z; cx_sameExpr := fun _ _ => false |}.
Example c128_early :
  takeoff (addConfiguration cfg_fresh $"LONG_CLASS" $"99999999999") 61 ex_none r_initial = UB
  /\ looks sh_LongClass ex_none [] /\ ~ looks sh_LongMethod ex_none []
  /\ exists st, takeoff ex_big 63 ex_none r_initial = Val ([], st).
Proof.
  split; [vm_compute; reflexivity|]. split; [left; split; [cbn; tauto|apply set_up_iff; vm_compute; reflexivity]|]. split.
  - intros [[H _]|[[H _]|(d & n & [] & _)]]; by_name H.
  - eexists. vm_compute. reflexivity.
Qed.
(** Thirty-one conditionals in a row. *)
Definition ex_branch (i : nat) : node := nd i (IfStmt [] (var i) (nd i NullStmt) None).
Definition ex_branchy : node :=
  nd 300 (FunctionDecl {| f_name := $"f"; f_method := None; f_isDefinition := true; f_bodyLines := 60 |} []
    (Some (nd 301 (CompoundStmt (map ex_branch (seq 302 31)))))).
Definition ex_wide : tuctx :=
  {| cx_env := cx_env ex_x; cx_lang := cx_lang ex_x;
     cx_tops := [({| t_id := 300; t_validLoc := true; t_inMainFile := true; t_kind := TFunction false |}, ex_branchy)];
     cx_evaluate := fun _ => None; cx_lines := fun _ => 1%Z; cx_sameExpr := fun _ _ => false |}.
Example c128_wide : well_formed ex_wide /\ named 64 sh_NPathComplexity $"high npath complexity"
  /\ (exists body, body_in [ex_branchy] body /\ uncountable body) /\ takeoff cfg_fresh 64 ex_wide r_initial = UB.
Proof.
  split; [vm_compute; repeat constructor; auto|]. split; [split; reflexivity|]. split; [|vm_compute; reflexivity].
  exists (nd 301 (CompoundStmt (map ex_branch (seq 302 31)))). split.
  - exists ex_branchy, ex_branchy. split; [now left|]. split; [constructor|]. split; [left; do 2 eexists; reflexivity|]. eexists. reflexivity.
  - destruct (c48_recurrences_define_one_number (nd 301 (CompoundStmt (map ex_branch (seq 302 31))))) as (v & P & _).
    apply (un_self _ v P). apply paths_npZ in P. subst v. vm_compute. reflexivity.
Qed.

Print Assumptions c128_rule_completes_iff.
Print Assumptions c128_defaults_fit.
Print Assumptions c128_oversized_setting.
Print Assumptions c128_too_many_paths.
Print Assumptions c128_protocol_method.
Print Assumptions c128_names.
Print Assumptions c128_run_completes_iff.
Print Assumptions c128_run_completes.
Print Assumptions c128_program_exits.
Print Assumptions c128_modest_code.
