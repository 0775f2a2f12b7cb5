(** * Properties C125, C126: the progress log and standard output *)
From Verif Require Import Base BaseFacts ModelResults ModelConfig ModelFilter ModelOptions ModelMain ModelDriver ModelSource ModelAST
  ModelRules ModelRulesVars ModelRuleTable ModelProgram ModelReporters ModelVerbose
  SpecResults SpecFilter SpecOptions SpecMain SpecDriver SpecJSON SpecReporters SpecProgram SpecVerbose
  ProofFilter ProofConfig ProofDriver ProofMain ProofJSON ProofReporters ProofVerbose PropMain PropReporters PropProgram.
From Coq Require Import Lia.
Local Arguments lit : simpl never.

(** File names contain no NUL. *)
Definition plain_names {CTX} (tc : toolchain CTX) (path : CTX -> str) (cmds : list (str * command)) : Prop :=
  Forall (fun fc => no_nul (fst fc)) cmds
  /\ forall fc cwd cwd' fr ctx, In fc cmds -> unit_compiles tc false cwd fc cwd' fr -> good fr ctx -> no_nul (path ctx).
Definition last_words (e : option stopped_while) : str := match e with Some s => unfinished s | None => [] end.

(** ** C125 *)
(** Asking for the log changes neither the results nor how the run ends. *)
Theorem c125_log_changes_nothing : forall CTX ST (tc : toolchain CTX) (takeoff : nat -> CTX -> ST -> outcome (list violation * ST))
    rules path g k sources c cwd st,
  snd (run_v tc takeoff rules path g k sources c cwd st) = run tc takeoff rules g k sources c cwd st.
Proof. intros. apply run_v_run. Qed.

(** The log is the story of the run, told in order; it comes to its end exactly when the run does. *)
Theorem c125_log_tells_the_story : forall CTX ST (tc : toolchain CTX) (takeoff : nat -> CTX -> ST -> outcome (list violation * ST))
    rules path g k sources c cwd st log c' o,
  plain_names tc path (commands_of tc sources) ->
  run_v tc takeoff rules path g k sources c cwd st = (log, (c', o)) -> o <> UB ->
  exists l e, story tc takeoff rules path g k cwd st (commands_of tc sources) l e
    /\ log = said l ++ last_words e /\ (e = None <-> exists st', o = Val st').
Proof. intros until o. intros [N U] R X. exact (run_story tc takeoff rules path g k sources c cwd st log c' o N U R X). Qed.

(** What the story says of each kind. *)
Definition compiles (l : list saying) : list (str * bool) :=
  flat_map (fun s => match s with Compiles f b => [(f, b)] | _ => [] end) l.
Definition analyzes (l : list saying) : list str :=
  flat_map (fun s => match s with Analyzes f => [f] | _ => [] end) l.
Definition checks (l : list saying) : list (str * bool) :=
  flat_map (fun s => match s with Checks f b => [(f, b)] | _ => [] end) l.
(** [Success] for the good units, [Failed] for the others. *)
Inductive verdicts {CTX} : list (str * command) -> list (frontend_result CTX) -> list (str * bool) -> Prop :=
| ve_nil : verdicts [] [] []
| ve_good : forall fc fr ctx cmds frs l, good fr ctx -> verdicts cmds frs l -> verdicts (fc :: cmds) (fr :: frs) ((fst fc, true) :: l)
| ve_bad : forall fc fr cmds frs l, bad fr -> verdicts cmds frs l -> verdicts (fc :: cmds) (fr :: frs) ((fst fc, false) :: l).

Section Told.
  Context {CTX ST : Type}.
  Variable tc : toolchain CTX.
  Variable takeoff : nat -> CTX -> ST -> outcome (list violation * ST).
  Variable rules : list nat.
  Variable path : CTX -> str.

  Lemma tried_tells checker mk wh cwd cmds l e : all_tried tc checker mk wh cwd cmds l e ->
    match e with
    | inr (cwd', ctxs) => exists frs, units_compile tc checker cwd cmds frs cwd' /\ good_units frs ctxs
        /\ exists v, verdicts cmds frs v /\ l = map (fun p => mk (fst p) (snd p)) v
    | inl s => exists pre fc post frs cwd1, cmds = pre ++ fc :: post /\ units_compile tc checker cwd pre frs cwd1
        /\ cannot_compile tc checker cwd1 fc /\ s = wh (fst fc)
        /\ exists v, verdicts pre frs v /\ l = map (fun p => mk (fst p) (snd p)) v
    end.
  Proof.
    induction 1 as [cwd|cwd fc cwd1 fr cmds l e U B T IH|cwd fc cwd1 fr ctx cmds l cwd2 ctxs U G T IH|cwd fc cwd1 fr ctx cmds l s U G T IH|cwd fc cmds N].
    - exists []. repeat split; try constructor. exists []. split; constructor.
    - destruct e as [s|[cwd2 ctxs]].
      + destruct IH as (pre & fc' & post & frs & cwd2 & -> & C & N & -> & v & V & ->).
        exists (fc :: pre), fc', post, (fr :: frs), cwd2. repeat split; auto; [econstructor; eauto|].
        exists ((fst fc, false) :: v). split; auto. now constructor.
      + destruct IH as (frs & C & Gs & v & V & ->). exists (fr :: frs). repeat split; [econstructor; eauto|now constructor|].
        exists ((fst fc, false) :: v). split; auto. now constructor.
    - destruct IH as (frs & C & Gs & v & V & ->). exists (fr :: frs). repeat split; [econstructor; eauto|now constructor|].
      exists ((fst fc, true) :: v). split; auto. econstructor; eauto.
    - destruct IH as (pre & fc' & post & frs & cwd2 & -> & C & N & -> & v & V & ->).
      exists (fc :: pre), fc', post, (fr :: frs), cwd2. repeat split; auto; [econstructor; eauto|].
      exists ((fst fc, true) :: v). split; auto. econstructor; eauto.
    - exists [], fc, cmds, [], cwd. repeat split; auto; [constructor|]. exists []. split; constructor.
  Qed.
  Lemma compiles_map v : compiles (map (fun p => Compiles (fst p) (snd p)) v) = v.
  Proof. unfold compiles. induction v as [|[f b] v IH]; cbn; auto. now rewrite IH. Qed.
  Lemma checks_map v : checks (map (fun p => Checks (fst p) (snd p)) v) = v.
  Proof. unfold checks. induction v as [|[f b] v IH]; cbn; auto. now rewrite IH. Qed.
  Lemma kinds_app a b : compiles (a ++ b) = compiles a ++ compiles b /\ analyzes (a ++ b) = analyzes a ++ analyzes b
    /\ checks (a ++ b) = checks a ++ checks b.
  Proof. unfold compiles, analyzes, checks. repeat split; apply flat_map_app. Qed.
  Lemma kinds_compile v : analyzes (map (fun p => Compiles (fst p) (snd p)) v) = []
    /\ checks (map (fun p => Compiles (fst p) (snd p)) v) = [].
  Proof. unfold analyzes, checks. split; induction v; cbn; auto. Qed.
  Lemma kinds_check v : compiles (map (fun p => Checks (fst p) (snd p)) v) = []
    /\ analyzes (map (fun p => Checks (fst p) (snd p)) v) = [].
  Proof. unfold analyzes, compiles. split; induction v; cbn; auto. Qed.
  Lemma analyzed_tells st ctxs l e : all_analyzed takeoff rules path st ctxs l e ->
    compiles l = [] /\ checks l = []
    /\ match e with
       | None => analyzes l = map path ctxs
       | Some s => exists pre ctx post all st1, ctxs = pre ++ ctx :: post /\ analyzes l = map path pre
           /\ units_run takeoff rules pre st all st1 /\ raises takeoff rules ctx st1 /\ s = WhileAnalyzing (path ctx)
       end.
  Proof.
    induction 1 as [st|st ctx per st1 ctxs l e R T IH|st ctx ctxs R].
    - auto.
    - destruct IH as (C & K & IH). repeat split; auto. destruct e as [s|].
      + destruct IH as (pre & x & post & all & st2 & -> & A & Us & Ra & ->). exists (ctx :: pre), x, post, (per :: all), st2.
        repeat split; auto; [cbn; f_equal; exact A|econstructor; eauto].
      + cbn. now f_equal.
    - repeat split; auto. exists [], ctx, ctxs, [], st. repeat split; auto. constructor.
  Qed.
  Lemma ffile_tells cwd st cmds l e : file_by_file tc takeoff rules path cwd st cmds l e ->
    checks l = []
    /\ match e with
       | inr cwd' => exists frs ctxs, units_compile tc false cwd cmds frs cwd' /\ good_units frs ctxs
           /\ verdicts cmds frs (compiles l) /\ analyzes l = map path ctxs
       | inl (WhileCompiling f) => exists pre fc post frs cwd1, cmds = pre ++ fc :: post
           /\ units_compile tc false cwd pre frs cwd1 /\ cannot_compile tc false cwd1 fc /\ f = fst fc
       | inl (WhileAnalyzing f) => exists pre fc post frs ctxs cwd1 ctx all st1, cmds = pre ++ fc :: post
           /\ units_compile tc false cwd (pre ++ [fc]) frs cwd1 /\ good_units frs (ctxs ++ [ctx])
           /\ units_run takeoff rules ctxs st all st1 /\ raises takeoff rules ctx st1 /\ f = path ctx
       | inl (WhileChecking f) => False
       end.
  Proof.
    induction 1 as [cwd st|cwd st fc cwd1 fr cmds l e U B T IH|cwd st fc cwd1 fr ctx per st1 cmds l e U G R T IH|cwd st fc cmds N|cwd st fc cwd1 fr ctx cmds U G R].
    - split; auto. exists [], []. repeat split; constructor.
    - destruct IH as [K IH]. split; auto. destruct e as [[f|f|f]|cwd2]; auto.
      + destruct IH as (pre & fc' & post & frs & cwd2 & -> & C & N & ->). exists (fc :: pre), fc', post, (fr :: frs), cwd2.
        repeat split; auto. econstructor; eauto.
      + destruct IH as (pre & fc' & post & frs & ctxs & cwd2 & ctx & all & st1 & -> & C & Gs & Us & Ra & ->).
        exists (fc :: pre), fc', post, (fr :: frs), ctxs, cwd2, ctx, all, st1. repeat split; auto; [econstructor; eauto|now constructor].
      + destruct IH as (frs & ctxs & C & Gs & V & A). exists (fr :: frs), ctxs. repeat split; auto; [econstructor; eauto|now constructor|].
        cbn. now constructor.
    - destruct IH as [K IH]. split; auto. destruct e as [[f|f|f]|cwd2]; auto.
      + destruct IH as (pre & fc' & post & frs & cwd2 & -> & C & N & ->). exists (fc :: pre), fc', post, (fr :: frs), cwd2.
        repeat split; auto. econstructor; eauto.
      + destruct IH as (pre & fc' & post & frs & ctxs & cwd2 & ctx' & all & st2 & -> & C & Gs & Us & Ra & ->).
        exists (fc :: pre), fc', post, (fr :: frs), (ctx :: ctxs), cwd2, ctx', (per :: all), st2.
        repeat split; auto; [econstructor; eauto|now constructor|econstructor; eauto].
      + destruct IH as (frs & ctxs & C & Gs & V & A). exists (fr :: frs), (ctx :: ctxs).
        repeat split; auto; [econstructor; eauto|now constructor|cbn; econstructor; eauto|cbn; now f_equal].
    - split; auto. exists [], fc, cmds, [], cwd. repeat split; auto. constructor.
    - split; auto. exists [], fc, cmds, [fr], [], cwd1, ctx, [], st. repeat split; auto.
      + econstructor; eauto. constructor.
      + constructor; auto. constructor.
      + constructor.
  Qed.

  Lemma told_completed : forall g k cwd st cmds l, story tc takeoff rules path g k cwd st cmds l None ->
    exists frs cwd' ctxs, units_compile tc false cwd cmds frs cwd' /\ good_units frs ctxs
      /\ verdicts cmds frs (compiles l) /\ analyzes l = map path ctxs
      /\ if k then exists frs2 cwd2, units_compile tc true cwd' cmds frs2 cwd2 /\ verdicts cmds frs2 (checks l) else checks l = [].
  Proof.
    assert (X : forall g cwd st cmds l cwd1, rules_story tc takeoff rules path g cwd st cmds l (inr cwd1) ->
      checks l = [] /\ exists frs ctxs, units_compile tc false cwd cmds frs cwd1 /\ good_units frs ctxs
      /\ verdicts cmds frs (compiles l) /\ analyzes l = map path ctxs).
    { intros g cwd st cmds l cwd1 R. inversion R as [? ? ? ? ? F| |? ? ? l1 ? ctxs l2 T A|]; subst.
      - apply ffile_tells in F as [K (frs & ctxs & ? & ? & ? & ?)]. split; auto. eauto 6.
      - apply tried_tells in T as (frs & C & G & v & V & ->). apply analyzed_tells in A as (A1 & A2 & A3).
        destruct (kinds_app (map (fun p => Compiles (fst p) (snd p)) v) l2) as (-> & -> & ->).
        destruct (kinds_compile v) as [-> ->]. rewrite A1, A2, A3, compiles_map, !app_nil_r. split; auto. exists frs, ctxs. auto. }
    intros g k cwd st cmds l S. inversion S as [|? ? ? ? ? cwd1 R|? ? ? ? l1 cwd1 l2 p R T|]; subst.
    - apply X in R as [K (frs & ctxs & ? & ? & ? & ?)]. exists frs, cwd1, ctxs. auto.
    - apply X in R as [K (frs & ctxs & C & G & V & A)]. destruct p as [cwd2 ctxs2]. apply tried_tells in T as (frs2 & C2 & G2 & v & V2 & ->).
      exists frs, cwd1, ctxs. destruct (kinds_app l1 (map (fun p => Checks (fst p) (snd p)) v)) as (-> & -> & ->).
      destruct (kinds_check v) as [-> ->]. rewrite !app_nil_r, K, checks_map. repeat split; auto. exists frs2, cwd2. auto.
  Qed.

  Lemma told_culprit : forall g k cwd st cmds l s, story tc takeoff rules path g k cwd st cmds l (Some s) ->
    match s with
    | WhileCompiling f => exists pre fc post frs cwd1, cmds = pre ++ fc :: post /\ units_compile tc false cwd pre frs cwd1
        /\ cannot_compile tc false cwd1 fc /\ f = fst fc
    | WhileAnalyzing f => exists some rest frs cwd1 before ctx after all st1, cmds = some ++ rest
        /\ units_compile tc false cwd some frs cwd1
        /\ good_units frs (before ++ ctx :: after) /\ units_run takeoff rules before st all st1
        /\ raises takeoff rules ctx st1 /\ f = path ctx
    | WhileChecking f => k = true /\ exists frs cwd0 pre fc post frs2 cwd1, units_compile tc false cwd cmds frs cwd0
        /\ cmds = pre ++ fc :: post /\ units_compile tc true cwd0 pre frs2 cwd1 /\ cannot_compile tc true cwd1 fc /\ f = fst fc
    end.
  Proof.
    assert (Y : forall g cwd st cmds l cwd1, rules_story tc takeoff rules path g cwd st cmds l (inr cwd1) ->
      exists frs, units_compile tc false cwd cmds frs cwd1).
    { intros g cwd st cmds l cwd1 R. inversion R as [? ? ? ? ? F| |? ? ? l1 ? ctxs l2 T A|]; subst.
      - apply ffile_tells in F as [K (frs & ctxs & ? & ? & ? & ?)]. eauto.
      - apply tried_tells in T as (frs & C & _). eauto. }
    intros g k cwd st cmds l s S. inversion S as [? ? ? ? ? ? ? R| | |? ? ? ? l1 cwd1 l2 ? R T]; subst.
    - inversion R as [? ? ? ? ? F|? ? ? ? ? T| |? ? ? l1 cwd1 ctxs l2 ? T A]; subst.
      + apply ffile_tells in F as [_ F]. destruct s as [f|f|f]; [exact F| |destruct F].
        destruct F as (pre & fc & post & frs & ctxs & cwd1 & ctx & all & st1 & -> & C & G & U & Ra & ->).
        exists (pre ++ [fc]), post, frs, cwd1, ctxs, ctx, [], all, st1. rewrite <- app_assoc. repeat split; auto.
      + apply tried_tells in T as (pre & fc & post & frs & cwd1 & -> & C & N & -> & _). exists pre, fc, post, frs, cwd1. auto.
      + apply tried_tells in T as (frs & C & G & _). apply analyzed_tells in A as (_ & _ & pre & ctx & post & all & st1 & -> & _ & U & Ra & ->).
        exists cmds, [], frs, cwd1, pre, ctx, post, all, st1. rewrite app_nil_r. repeat split; auto.
    - apply Y in R as [frs0 C0]. apply tried_tells in T as (pre & fc & post & frs & cwd2 & -> & C & N & -> & _).
      split; auto. exists frs0, cwd1, pre, fc, post, frs, cwd2. auto 6.
  Qed.
End Told.
(** The log of a completed run has, for every compile command and in order, a line with its
    success or failure, one line for every unit analysed, and with the static analyzer on a
    line for every command again. *)
Theorem c125_completed : forall CTX ST (tc : toolchain CTX) (takeoff : nat -> CTX -> ST -> outcome (list violation * ST)) rules path g k cwd st cmds l, story tc takeoff rules path g k cwd st cmds l None ->
  exists frs cwd' ctxs, units_compile tc false cwd cmds frs cwd' /\ good_units frs ctxs
    /\ verdicts cmds frs (compiles l) /\ analyzes l = map path ctxs
    /\ if k then exists frs2 cwd2, units_compile tc true cwd' cmds frs2 cwd2 /\ verdicts cmds frs2 (checks l) else checks l = [].
Proof. intros CTX ST. exact told_completed. Qed.
(** The last line of an interrupted log names the file at which the run stopped, and the trouble
    is really with that file: the compiler could not be started on it, or a rule raised. *)
Theorem c125_last_line_names_the_culprit : forall CTX ST (tc : toolchain CTX) (takeoff : nat -> CTX -> ST -> outcome (list violation * ST)) rules path g k cwd st cmds l s, story tc takeoff rules path g k cwd st cmds l (Some s) ->
  match s with
  | WhileCompiling f => exists pre fc post frs cwd1, cmds = pre ++ fc :: post /\ units_compile tc false cwd pre frs cwd1
      /\ cannot_compile tc false cwd1 fc /\ f = fst fc
  | WhileAnalyzing f => exists some rest frs cwd1 before ctx after all st1, cmds = some ++ rest
      /\ units_compile tc false cwd some frs cwd1
      /\ good_units frs (before ++ ctx :: after) /\ units_run takeoff rules before st all st1
      /\ raises takeoff rules ctx st1 /\ f = path ctx
  | WhileChecking f => k = true /\ exists frs cwd0 pre fc post frs2 cwd1, units_compile tc false cwd cmds frs cwd0
      /\ cmds = pre ++ fc :: post /\ units_compile tc true cwd0 pre frs2 cwd1 /\ cannot_compile tc true cwd1 fc /\ f = fst fc
  end.
Proof. intros CTX ST. exact told_culprit. Qed.

(** ** C126 *)
(** What the driver of the program says; the main file of a unit names it. *)
Definition log_of (i : inputs) (s : ostate) (sel : list nat) : str :=
  fst (run_v (in_tools i) (takeoff (os_cfg s)) sel (fun x => u_path (main_unit x)) (enableGlobalAnalysis s) (enableClangChecker s)
         (in_sources i) c_empty (in_cwd i) r_initial).
(** What a reader may find on standard output: the two streams are buffered separately. *)
Definition stdout (verbose : bool) (i : inputs) (s : ostate) (ev : list event) (out : str) : Prop :=
  interleaved (cout_text ev) (outs_text verbose (log_of i s) ev) out.

Lemma log_starts i s sel :
  match commands_of (in_tools i) (in_sources i) with
  | [] => log_of i s sel = []
  | _ :: _ => exists rest, log_of i s sel = $"Compiling " ++ rest
  end.
Proof.
  unfold log_of, run_v, constructCompileCommands. rewrite commands_loop_eq. cbn [fst app]. fold (commands_of (in_tools i) (in_sources i)).
  destruct (commands_of (in_tools i) (in_sources i)) as [|fc cmds].
  - destruct (enableGlobalAnalysis s), (enableClangChecker s); reflexivity.
  - assert (A : forall cs acc, exists rest r, constructCompilers_v (in_tools i) (fc :: cs) c_empty (in_cwd i) acc = ($"Compiling " ++ rest, r)).
    { intros cs acc. cbn [constructCompilers_v]. unfold log_compiling. destruct (compile_one _ _ _ _ _) as [[c1 cwd1] [fr| |]].
      - destruct (constructCompilers_v _ _ _ _ _) as [more r]. rewrite <- app_assoc. eauto.
      - eauto.
      - eauto. }
    assert (B : forall cs, exists rest r, invoke_v (in_tools i) (takeoff (os_cfg s)) sel (fun x => u_path (main_unit x)) (fc :: cs) c_empty (in_cwd i) r_initial
              = ($"Compiling " ++ rest, r)).
    { intros cs. unfold invoke_v. destruct (A cs []) as (rest & [[c1 cwd1] o] & ->). destruct o as [ctxs| |]; eauto.
      destruct (analyze_v _ _ _ _ _ _) as [t [c2 o2]]. rewrite <- app_assoc. eauto. }
    assert (C : exists rest r, (if enableGlobalAnalysis s
        then invoke_v (in_tools i) (takeoff (os_cfg s)) sel (fun x => u_path (main_unit x)) (fc :: cmds) c_empty (in_cwd i) r_initial
        else invoke_each_v (in_tools i) (takeoff (os_cfg s)) sel (fun x => u_path (main_unit x)) (fc :: cmds) c_empty (in_cwd i) r_initial)
        = ($"Compiling " ++ rest, r)).
    { destruct (enableGlobalAnalysis s); [apply B|]. cbn [invoke_each_v]. destruct (B []) as (rest & [[c1 cwd1] o] & ->).
      destruct o as [st1| |]; eauto. destruct (invoke_each_v _ _ _ _ _ _ _ _) as [t r]. rewrite <- app_assoc. eauto. }
    destruct C as (rest & [[c1 cwd1] o] & ->). destruct o as [st1| |]; cbn [fst]; eauto.
    destruct (enableClangChecker s); cbn [fst]; eauto. destruct (invokeClangStaticAnalyzer_v _ _ _ _) as [t r]. cbn [fst].
    rewrite <- app_assoc. eauto.
Qed.
Lemma log_empty_iff i s sel : log_of i s sel = [] <-> commands_of (in_tools i) (in_sources i) = [].
Proof.
  pose proof (log_starts i s sel) as H. destruct (commands_of (in_tools i) (in_sources i)) as [|fc cmds].
  - split; auto.
  - destruct H as [rest ->]. split; discriminate.
Qed.
Lemma errs_silent w s c n post : said_last w s c n post -> cout_text post = [] /\ (forall v log, outs_text v log post = []).
Proof.
  intros [[_ ->]|(_ & l & _ & ->)]; (split; [|intros v log; destruct v]); reflexivity.
Qed.
Lemma options_unique w s s' : options_are w s -> options_are w s' -> s = s'.
Proof. intros (cl & A & B) (cl' & A' & B'). rewrite A in A'. injection A' as <-. rewrite B in B'. now injection B'. Qed.
(** The two streams of a run that made its report. *)
Lemma streams w i ev n s : main (program w i) = (ev, Exit n) -> (n = 0 \/ n = 5 \/ n = 6)%Z -> w_listRules w = false ->
  options_are (program w i) s ->
  exists rules r c sel text, rules_loaded (program w i) s rules /\ reporter_found (program w i) s r /\ analysed (program w i) s rules c
    /\ reported (program w i) s r c text
    /\ cout_text ev = (if str_eqb (o_value (argOutput s)) $"-" then text else [])
    /\ forall v, outs_text v (log_of i s) ev = if v then log_of i s sel else [].
Proof.
  intros M N L O. apply main_exit in M as [_ T].
  inversion T as [|? ? B|sel m|sel pre m|? sel s' rules r c text e post N' O' R F A Fi Re RE P]; subst; try (exfalso; lia).
  assert (s' = s) as -> by (eapply options_unique; eauto).
  exists rules, r, c, sel, text. do 4 (split; [assumption|]).
  unfold listing. cbn [w_listRules program]. rewrite L. cbn [app]. destruct (errs_silent _ _ _ _ post P) as [E1 E2].
  destruct RE as [[D ->]|(D & path & Op & ->)].
  - rewrite D. split.
    + cbn [str_eqb]. unfold cout_text in *. cbn [flat_map]. rewrite E1, app_nil_r. reflexivity.
    + intros v. specialize (E2 true (log_of i s)). unfold outs_text in *. destruct v; auto. cbn [flat_map]. rewrite E2, app_nil_r. reflexivity.
  - apply str_eqb_neq in D. rewrite D. split.
    + unfold cout_text in *. cbn [flat_map]. now rewrite E1.
    + intros v. specialize (E2 true (log_of i s)). unfold outs_text in *. destruct v; auto. cbn [flat_map]. rewrite E2, app_nil_r. reflexivity.
Qed.

(** Without -verbose, standard output is exactly the report. *)
Theorem c126_quiet_output_is_the_report : forall w i ev n s out,
  main (program w i) = (ev, Exit n) -> (n = 0 \/ n = 5 \/ n = 6)%Z -> w_listRules w = false ->
  options_are (program w i) s -> o_value (argOutput s) = $"-" -> stdout false i s ev out ->
  exists rules r c, rules_loaded (program w i) s rules /\ reporter_found (program w i) s r /\ analysed (program w i) s rules c
    /\ reported (program w i) s r c out.
Proof.
  intros w i ev n s out M N L O D S. destruct (streams w i ev n s M N L O) as (rules & r & c & sel & text & H1 & H2 & H3 & H4 & E & V).
  unfold stdout in S. rewrite E, V, D in S. apply interleaved_left in S. subst out. exists rules, r, c. auto.
Qed.
(** With -verbose, and whatever the streams do, it is the report only when there was nothing to compile. *)
Theorem c126_verbose_output : forall w i ev n s out,
  main (program w i) = (ev, Exit n) -> (n = 0 \/ n = 5 \/ n = 6)%Z -> w_listRules w = false ->
  options_are (program w i) s -> o_value (argOutput s) = $"-" -> stdout true i s ev out ->
  exists rules r c text, rules_loaded (program w i) s rules /\ reporter_found (program w i) s r /\ analysed (program w i) s rules c
    /\ reported (program w i) s r c text
    /\ (out = text <-> commands_of (in_tools i) (in_sources i) = []).
Proof.
  intros w i ev n s out M N L O D S. destruct (streams w i ev n s M N L O) as (rules & r & c & sel & text & H1 & H2 & H3 & H4 & E & V).
  unfold stdout in S. rewrite E, V, D in S. change (str_eqb $"-" $"-") with true in S. cbv iota in S.
  exists rules, r, c, text. do 4 (split; [assumption|]). rewrite <- (log_empty_iff i s sel). split.
  - intros ->. apply interleaved_length in S. destruct (log_of i s sel); auto. cbn in S. lia.
  - intros E'. rewrite E' in S. now apply interleaved_left in S.
Qed.
(** With -o, standard output carries the log and nothing else, and without -verbose nothing. *)
Theorem c126_report_in_a_file : forall w i ev n s verbose out,
  main (program w i) = (ev, Exit n) -> (n = 0 \/ n = 5 \/ n = 6)%Z -> w_listRules w = false ->
  options_are (program w i) s -> o_value (argOutput s) <> $"-" -> stdout verbose i s ev out ->
  exists sel, out = if verbose then log_of i s sel else [].
Proof.
  intros w i ev n s verbose out M N L O D S. destruct (streams w i ev n s M N L O) as (rules & r & c & sel & text & H1 & H2 & H3 & H4 & E & V).
  unfold stdout in S. apply str_eqb_neq in D. rewrite E, V, D in S. exists sel. revert S. generalize (if verbose then log_of i s sel else []).
  clear. intros b S. remember [] as a eqn:Ea. induction S; try discriminate; auto. rewrite IHS; auto.
Qed.
(** A report that is a JSON document stops being one as soon as the log comes before or after it. *)
Theorem c126_log_spoils_json : forall i s sel text j j', commands_of (in_tools i) (in_sources i) <> [] -> json_text j text ->
  ~ json_text j' (log_of i s sel ++ text) /\ ~ json_text j' (text ++ log_of i s sel).
Proof.
  intros i s sel text j j' C J. pose proof (log_starts i s sel) as H. destruct (commands_of _ _) as [|fc cmds]; [now destruct C|].
  destruct H as [rest ->]. split.
  - intros K. apply document_complete in K as (f0 & K). specialize (K (S f0) ltac:(lia)). revert K. unfold pdocument.
    rewrite <- app_assoc. generalize (rest ++ text). intros t. 
    change ($"Compiling " ++ t) with ("C"%char :: $"ompiling " ++ t). change (skipWhite ("C"%char :: $"ompiling " ++ t)) with ("C"%char :: $"ompiling " ++ t).
    change (pvalue (S f0) ("C"%char :: $"ompiling " ++ t)) with (@None (json * str)). discriminate.
  - intros K. apply document_complete in K as (f1 & K). destruct J as (w & t & w' & -> & W & V & W').
    destruct (proj1 json_complete j t V (w' ++ $"Compiling " ++ rest)) as (f0 & P).
    { apply stop_white; auto. intros c r [= <- _]. reflexivity. }
    specialize (K (f0 + f1) ltac:(lia)). specialize (P (f0 + f1) ltac:(lia)). revert K. unfold pdocument. rewrite <- !app_assoc.
    destruct (value_head _ _ V) as (c & t' & E & X & _). rewrite E at 1. cbn [app].
    rewrite skipWhite_app by auto. rewrite app_comm_cons, <- E, P.
    change ($"Compiling " ++ rest) with ("C"%char :: $"ompiling " ++ rest). rewrite skipWhite_app by auto. discriminate.
Qed.

(** The two files of PropProgram, told file by file, ... *)
Example c125_case : exists c st l,
  plain_names (in_tools (ex_inputs ex_x ex_z)) (fun x => u_path (main_unit x)) (commands_of (in_tools (ex_inputs ex_x ex_z)) [$"a.c"; $"b.c"])
  /\ run_v (in_tools (ex_inputs ex_x ex_z)) (takeoff (os_cfg (os_initial exm_cl))) [10; 52] (fun x => u_path (main_unit x)) false false
       [$"a.c"; $"b.c"] c_empty $"/w" r_initial = (said l, (c, Val st))
  /\ l = [Compiles $"a.c" true; Analyzes $"a.c"; Compiles $"b.c" true; Analyzes $"b.c"].
Proof.
  do 3 eexists. split; [|split; [|reflexivity]]; [|vm_compute; reflexivity].
  split.
  - vm_compute. repeat constructor; discriminate.
  - intros fc cwd cwd' fr ctx _ (dir & argv & args & _ & _ & _ & _ & _ & ->) [G _].
    cbn [tc_frontend ex_tools in_tools ex_inputs fr_context] in G. injection G as <-.
    destruct (str_eqb cwd' $"a.c"); vm_compute; repeat constructor; discriminate.
Qed.
(** ... and when the second file cannot be entered, with global analysis: the log stops there. *)
Definition ex_noentry : toolchain tuctx :=
  {| tc_abspath := fun s => s; tc_db := fun p => [Build_command p [$"cc"; p]]; tc_adjust := fun l _ => l;
     tc_mainExecutable := $"oclint"; tc_jobs := fun argv => ([Build_job true $"clang" argv], [], []);
     tc_chdir := fun _ d => if str_eqb d $"b.c" then None else Some d; tc_diagnosticsCreated := fun _ => true;
     tc_frontend := fun cwd _ => {| fr_diagnostics := []; fr_context := Some ex_x |} |}.
Example c125_stopped_case : exists c m,
  run_v ex_noentry (takeoff (os_cfg (os_initial exm_cl))) [10; 52] (fun x => u_path (main_unit x)) true false
    [$"a.c"; $"b.c"] c_empty $"/w" r_initial
  = (said [Compiles $"a.c" true] ++ last_words (Some (WhileCompiling $"b.c")), (c, Exc m)).
Proof. do 2 eexists. vm_compute. reflexivity. Qed.

(** A successful run with the JSON reporter. *)
Definition ex_json_world : world :=
  {| w_list := w_list (ex_world [10]); w_rulelib := w_rulelib (ex_world [10]);
     w_replib := fun _ => Some (Some (JSONReporter shipped_env 0)); w_read := fun _ => None; w_yaml := fun _ => cf_initial;
     w_env := w_env (ex_world [10]);
     w_cmdline := Some {| cl_output := None; cl_reportType := Some $"json"; cl_R := cl_R exm_cl; cl_rc := [];
        cl_rule := []; cl_disableRule := []; cl_maxP1 := None; cl_maxP2 := None; cl_maxP3 := None;
        cl_globalAnalysis := None; cl_clangChecker := None; cl_duplications := None |};
     w_listRules := false; w_canOpen := fun _ => true; w_accepts := fun _ => 0;
     w_rules := shipped_env; w_driver := fun _ => (c_empty, UB); w_hash := fun _ => 0%Z |}.
(** Finding: -verbose and a JSON report on standard output do not go together.  The run
    succeeds; without -verbose its output is a JSON document, with -verbose the same output,
    in program order, is none. *)
Theorem c126_verbose_json_refuted : exists w i ev s text j out,
  main (program w i) = (ev, Exit 0) /\ w_listRules w = false /\ options_are (program w i) s /\ o_value (argOutput s) = $"-"
  /\ (forall t, stdout false i s ev t <-> t = text) /\ json_text j text
  /\ stdout true i s ev out /\ forall j', ~ json_text j' out.
Proof.
  exists ex_json_world, (ex_inputs ex_x ex_z).
  assert (M : exists text, main (program ex_json_world (ex_inputs ex_x ex_z)) = ([EAnalyze [10]; EOut text], Exit 0)
              /\ reports (JSONReporter shipped_env 0) true {| c_collection := [[]; []]; c_errors := []; c_warnings := []; c_bugs := [] |} (Val text)).
  { eexists. split; [vm_compute; reflexivity|]. apply reports_compute. vm_compute. reflexivity. }
  destruct M as (text & M & R).
  assert (O : exists s, options_are (program ex_json_world (ex_inputs ex_x ex_z)) s /\ o_value (argOutput s) = $"-").
  { eexists. split; [eexists; split; [reflexivity|]|]; vm_compute; reflexivity. }
  destruct O as (s & O & D).
  destruct (presented shipped_env true {| c_collection := [[]; []]; c_errors := []; c_warnings := []; c_bugs := [] |}) as (V & P).
  assert (N : vw_violations V = [] /\ vw_bugs V = []).
  { destruct P as ((l & -> & ->) & _ & _ & (l4 & -> & ->) & _). split; reflexivity. }
  destruct N as [N1 N2].
  destruct (c67_valid_json shipped_env 0 true _ V P) as (text' & ts & E & _ & J).
  { unfold ruled_view. rewrite N1. constructor. }
  { rewrite N1, N2. constructor. }
  apply E in R. injection R as <-.
  assert (C : cout_text [EAnalyze [10]; EOut text] = text) by (unfold cout_text; cbn [flat_map]; apply app_nil_r).
  assert (Q : outs_text true (log_of (ex_inputs ex_x ex_z) s) [EAnalyze [10]; EOut text] = log_of (ex_inputs ex_x ex_z) s [10])
    by (unfold outs_text; cbn [flat_map]; apply app_nil_r).
  exists [EAnalyze [10]; EOut text], s, text, (view_json ts V), (log_of (ex_inputs ex_x ex_z) s [10] ++ text).
  split; [exact M|]. split; [reflexivity|]. split; [exact O|]. split; [exact D|]. split; [|split; [exact J|split]].
  - intros t. unfold stdout. rewrite C. cbn [outs_text]. split; [apply interleaved_left|intros ->; apply interleaved_all_left].
  - unfold stdout. rewrite C, Q. apply interleaved_then.
  - intros j'. refine (proj1 (c126_log_spoils_json (ex_inputs ex_x ex_z) s [10] text (view_json ts V) j' _ J)). discriminate.
Qed.

Print Assumptions c125_log_changes_nothing.
Print Assumptions c125_log_tells_the_story.
Print Assumptions c125_completed.
Print Assumptions c125_last_line_names_the_culprit.
Print Assumptions c126_quiet_output_is_the_report.
Print Assumptions c126_verbose_output.
Print Assumptions c126_report_in_a_file.
Print Assumptions c126_log_spoils_json.
Print Assumptions c126_verbose_json_refuted.
