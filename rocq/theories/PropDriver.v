(** * Theorems C29-C36: compile commands, front end arguments, analysis, diagnostics *)
From Verif Require Import Base BaseFacts ModelResults ModelConfig ModelFilter SpecFilter
  ProofFilter ModelDriver SpecDriver ProofDriver.
From Coq Require Import Lia.
Local Arguments list_ascii_of_string : simpl never.

(** ** C29 *)
(** Every compile command of every source, in order, with the file it belongs to; sources
    without one are announced, in order, and nothing else is written. *)
Theorem c29_every_command_once_in_order : forall abspath db sources,
  exists skipped,
    sublist_where (fun s => db (abspath s) = []) sources skipped
    /\ constructCompileCommands abspath db sources
       = (flat_map (fun s => map (pair (abspath s)) (db (abspath s))) sources,
          map (fun s => $"Skipping " ++ abspath s ++ $". Compile command not found." ++ [NL]) skipped).
Proof.
  intros. exists (filter (fun s => match db (abspath s) with [] => true | _ => false end) sources).
  split.
  - apply filter_sublist_where. intros s. destruct (db (abspath s)); split; intros; congruence.
  - unfold constructCompileCommands. rewrite commands_loop_eq. f_equal. rewrite app_nil_l.
    induction sources as [|s sources IH]; [reflexivity|]. cbn [flat_map filter]. rewrite IH.
    destruct (db (abspath s)); reflexivity.
Qed.

(** Dropping or adding a source changes nothing for the others. *)
Theorem c29_sources_are_independent : forall abspath db a s b,
  let cmds l := fst (constructCompileCommands abspath db l) in
  cmds (a ++ s :: b) = cmds a ++ map (pair (abspath s)) (db (abspath s)) ++ cmds b.
Proof.
  intros. unfold cmds, constructCompileCommands. rewrite !commands_loop_eq.
  cbn [fst app]. rewrite flat_map_app. reflexivity.
Qed.

Example c29_case :
  let db := fun p => if str_eqb p $"/a.c" then [Build_command $"/d" [$"cc"]; Build_command $"/e" [$"cc"; $"x"]]
                     else [] in
  constructCompileCommands (fun s => $"/" ++ s) db [$"b.c"; $"a.c"; $"a.c"]
  = ([($"/a.c", Build_command $"/d" [$"cc"]); ($"/a.c", Build_command $"/e" [$"cc"; $"x"]);
      ($"/a.c", Build_command $"/d" [$"cc"]); ($"/a.c", Build_command $"/e" [$"cc"; $"x"])],
     [$"Skipping /b.c. Compile command not found." ++ [NL]]).
Proof. reflexivity. Qed.

(** ** C30 *)
Theorem c30_plain_arguments : forall exe line argv,
  buildArgv exe line false = Val argv <-> plain_argv exe line argv.
Proof. intros. symmetry. apply plain_argv_iff. Qed.

Theorem c30_plain_arguments_defined : forall exe line,
  line <> [] -> exists argv, buildArgv exe line false = Val argv.
Proof. intros exe [|p args] H; [congruence|]. eexists. apply buildArgv_plain. Qed.

Example c30_case :
  buildArgv $"oclint" [$"cc"; $"-gmodules"; $"a.c"; $"-fsyntax-only"] false
  = Val [$"oclint"; $"a.c"; $"-fsyntax-only"; $"-D__OCLINT__"].
Proof. reflexivity. Qed.

(** ** C31 *)
Theorem c31_analyzer_arguments : forall exe line argv,
  buildArgv exe line true = Val argv <-> analyzer_argv exe line argv.
Proof. intros. symmetry. apply analyzer_argv_iff. Qed.

(** Finding: command lines of fewer than two elements are undefined behaviour. *)
Theorem c31_undefined_iff_short : forall exe line,
  buildArgv exe line true = UB <-> length line <= 1.
Proof.
  intros exe [|p args]; [simpl; split; auto|].
  destruct args as [|last args _] using rev_ind; [simpl; split; auto|].
  rewrite buildArgv_checker. simpl. rewrite app_length. simpl. split; [discriminate|lia].
Qed.
Theorem c31_always_defined_refuted : exists exe line, line <> [] /\ buildArgv exe line true = UB.
Proof. exists $"oclint", [$"cc"]. split; [discriminate|reflexivity]. Qed.

Example c31_case :
  buildArgv $"oclint" [$"cc"; $"-gmodules"; $"a.c"; $"-fsyntax-only"] true
  = Val [$"oclint"; $"--analyze"; $"a.c"; $"-D__OCLINT__"].
Proof. reflexivity. Qed.

(** ** C32 *)
Theorem c32_replaces_every_occurrence : forall orig old new,
  old <> [] ->
  exists out, replaced old new orig out
    /\ (forall out', replaced old new orig out' -> out' = out)
    /\ forall fuel, length orig <= fuel -> stringReplace fuel orig old new = Some out.
Proof.
  intros orig old new H. destruct (stringReplace_ok (length orig) orig old new H (le_n _)) as (out & Hr & _).
  exists out. split; [exact Hr|]. split.
  - intros out' H'. eapply replaced_det; eauto.
  - intros fuel Hf. destruct (stringReplace_ok fuel orig old new H Hf) as (out2 & Hr2 & E).
    rewrite E. f_equal. eapply replaced_det; eauto.
Qed.

Theorem c32_no_occurrence_unchanged : forall orig old new,
  (forall a b, orig <> a ++ old ++ b) ->
  forall fuel, stringReplace fuel orig old new = Some orig.
Proof.
  intros orig old new H fuel. unfold stringReplace.
  pose proof (find_from_skip [] orig old) as F. simpl in F. rewrite F.
  rewrite (proj2 (find_sub_none _ _) H). now destruct fuel.
Qed.

Theorem c32_empty_placeholder_diverges : forall orig new fuel,
  stringReplace fuel orig [] new = None.
Proof.
  intros. unfold stringReplace. pose proof (find_from_skip [] orig []) as F. simpl in F. rewrite F.
  replace (find_sub [] orig) with (Some 0) by now destruct orig.
  exact (replace_loop_empty fuel [] orig new).
Qed.

Example c32_case : stringReplace 9 $"a\ b\ \ c" $"\ " $"\ \ " = Some $"a\ \ b\ \ \ \ c".
Proof. reflexivity. Qed.

(** ** C33 *)
Theorem c33_accepted_iff_usable : forall jobs offload text args,
  getCC1Arguments jobs offload text = Val args <-> usable_jobs jobs offload args.
Proof. intros. symmetry. apply usable_iff. Qed.

(** Any other job list raises an error; it contains the printed jobs except when the first
    job is a command of another tool. *)
Theorem c33_others_raise : forall jobs offload text,
  (forall args, ~ usable_jobs jobs offload args) ->
  exists what, getCC1Arguments jobs offload text = Exc what
    /\ ((exists a b, what = a ++ text ++ b)
        \/ exists j others, jobs = j :: others /\ j_isCommand j = true /\ j_tool j <> $"clang").
Proof.
  intros jobs offload text H.
  assert (K : forall args, getCC1Arguments jobs offload text <> Val args).
  { intros args E. apply (H args). eapply usable_iff; eauto. }
  unfold getCC1Arguments in *. destruct jobs as [|j others].
  { eexists. split; [reflexivity|]. left.
    exists ($"compilation contains no job:" ++ [NL]), [NL]. now rewrite <- !app_assoc. }
  destruct ((1 <? length (j :: others)) && _).
  { eexists. split; [reflexivity|]. left.
    exists ($"compilation contains multiple jobs:" ++ [NL]), [NL]. now rewrite <- !app_assoc. }
  destruct (j_isCommand j) eqn:Ec; cbn [negb] in *.
  - destruct (str_eqb (j_tool j) $"clang") eqn:Et; cbn [negb] in *.
    + now destruct (K (j_args j) eq_refl).
    + eexists. split; [reflexivity|]. right. exists j, others. repeat split; auto.
      now apply str_eqb_neq.
  - eexists. split; [reflexivity|]. left.
    exists ($"compilation job does not contain correct command:" ++ [NL]), [NL].
    now rewrite <- !app_assoc.
Qed.

Theorem c33_error_names_jobs_refuted : exists jobs offload text what,
  getCC1Arguments jobs offload text = Exc what /\ forall a b, what <> a ++ text ++ b.
Proof.
  exists [Build_job true $"as" []], [], $"""as"" x.s", $"expected a command for clang compiler".
  split; [reflexivity|]. apply find_sub_none. reflexivity.
Qed.

Example c33_case :
  usable_jobs [Build_job true $"clang" [$"-cc1"]; Build_job true $"ld" []] [false; true] [$"-cc1"]
  /\ (forall args, ~ usable_jobs [Build_job true $"clang" []; Build_job true $"ld" []] [false] args).
Proof.
  split.
  - do 2 eexists. repeat split. right. simpl. auto.
  - intros args (j & o & [= <- <-] & [H|[H|[]]] & _); discriminate.
Qed.

(** ** C34 *)
(** If the front end gets to run on every unit and the rules complete, the analysis
    completes; the rules ran exactly on the units that compiled without error and have an
    AST, in command order, and every diagnostic is accounted for.  Both modes. *)
Theorem c34_rules_run_on_good_units : forall (CTX ST : Type) (tc : toolchain CTX)
    (takeoff : nat -> CTX -> ST -> outcome (list violation * ST)) rules g sources c cwd st
    frs cwd' ctxs all st',
  units_compile tc false cwd (commands_of tc sources) frs cwd' ->
  good_units frs ctxs ->
  units_run takeoff rules ctxs st all st' ->
  exists c' errs warns,
    run tc takeoff rules g false sources c cwd st = (c', Val st')
    /\ c_collection c' = c_collection c ++ map (fun per_rule => recordable (concat per_rule)) all
    /\ c_errors c' = c_errors c ++ errs /\ shows_where is_error (all_diagnostics frs) errs
    /\ c_warnings c' = c_warnings c ++ warns /\ shows_where is_warning (all_diagnostics frs) warns
    /\ c_bugs c' = c_bugs c.
Proof.
  intros CTX ST tc takeoff rules g sources c cwd st frs cwd' ctxs all st' H1 H2 H3.
  apply good_units_iff in H2. subst ctxs.
  exists (after_analysis c (all_diagnostics frs) all).
  exists (map dviol (filter errorb (all_diagnostics frs))).
  exists (map dviol (filter warnb (all_diagnostics frs))).
  split.
  - unfold run, constructCompileCommands. rewrite commands_loop_eq. cbn [fst app].
    fold (commands_of tc sources).
    destruct g.
    + erewrite invoke_units by eauto. reflexivity.
    + erewrite invoke_each_units by eauto. reflexivity.
  - repeat split; auto.
    + exists (filter errorb (all_diagnostics frs)). split; [|apply map_dviol_shown].
      apply filter_sublist_where, errorb_iff.
    + exists (filter warnb (all_diagnostics frs)). split; [|apply map_dviol_shown].
      apply filter_sublist_where, warnb_iff.
Qed.

Lemma run_inv (CTX ST : Type) (tc : toolchain CTX)
    (takeoff : nat -> CTX -> ST -> outcome (list violation * ST)) rules g k sources c cwd st c' st' :
  run tc takeoff rules g k sources c cwd st = (c', Val st') ->
  exists frs cwd' all,
    units_compile tc false cwd (commands_of tc sources) frs cwd'
    /\ units_run takeoff rules (flat_map goodb frs) st all st'
    /\ (if k then exists frs2 cwd2, units_compile tc true cwd' (commands_of tc sources) frs2 cwd2
             /\ c' = fold_left (HandleDiagnostic true) (all_diagnostics frs2)
                       (after_analysis c (all_diagnostics frs) all)
        else c' = after_analysis c (all_diagnostics frs) all).
Proof.
  unfold run, constructCompileCommands. rewrite commands_loop_eq. cbn [fst app].
  fold (commands_of tc sources).
  destruct (if g then _ else _) as [[c1 cwd1] [st1| |]] eqn:E; try discriminate.
  assert (X : exists frs all, units_compile tc false cwd (commands_of tc sources) frs cwd1
      /\ units_run takeoff rules (flat_map goodb frs) st all st1
      /\ c1 = after_analysis c (all_diagnostics frs) all).
  { destruct g.
    - destruct (invoke_units_inv _ _ _ _ _ _ _ _ _ _ E) as (frs & all & U & R).
      exists frs, all. repeat split; auto. erewrite invoke_units in E by eauto. now inversion E.
    - destruct (invoke_each_units_inv _ _ _ _ _ _ _ _ _ _ E) as (frs & all & U & R).
      exists frs, all. repeat split; auto. erewrite invoke_each_units in E by eauto. now inversion E. }
  destruct X as (frs & all & U & R & ->).
  destruct k.
  - destruct (invokeClangStaticAnalyzer _ _ _ _) as [[c2 cwd2] [u| |]] eqn:E2; try discriminate.
    intros [= <- <-]. exists frs, cwd1, all. repeat split; auto.
    destruct (csa_units_inv _ _ _ _ _ _ _ E2) as (frs2 & U2). exists frs2, cwd2. split; auto.
    rewrite (csa_units _ _ _ _ _ _ U2) in E2. now inversion E2.
  - intros [= <- <-]. exists frs, cwd1, all. repeat split; auto.
Qed.

(** Conversely, an analysis that completes did exactly that. *)
Theorem c34_completed_analysis_covers_good_units : forall (CTX ST : Type) (tc : toolchain CTX)
    (takeoff : nat -> CTX -> ST -> outcome (list violation * ST)) rules g sources c cwd st c' st',
  run tc takeoff rules g false sources c cwd st = (c', Val st') ->
  exists frs cwd' ctxs all,
    units_compile tc false cwd (commands_of tc sources) frs cwd'
    /\ good_units frs ctxs
    /\ units_run takeoff rules ctxs st all st'
    /\ c_collection c' = c_collection c ++ map (fun per_rule => recordable (concat per_rule)) all.
Proof.
  intros CTX ST tc takeoff rules g sources c cwd st c' st' H.
  apply run_inv in H as (frs & cwd' & all & U & R & ->).
  exists frs, cwd', (flat_map goodb frs), all. repeat split; auto. now apply good_units_iff.
Qed.

(** A failing directory change aborts.  Analysing all units together, no rule has run;
    analysing one by one, the units before it have their sets. *)
Lemma cc_chdir_fails CTX (tc : toolchain CTX) pre fc post : forall c cwd acc frs cwd1 dir,
  units_compile tc false cwd pre frs cwd1 ->
  replaced $"\ " $" " (cc_directory (snd fc)) dir ->
  tc_chdir tc cwd1 dir = None ->
  constructCompilers tc (pre ++ fc :: post) c cwd acc
  = (fold_left (HandleDiagnostic false) (all_diagnostics frs) c, cwd1, Exc (chdirError dir)).
Proof.
  induction pre as [|x pre IH]; intros c cwd acc frs cwd1 dir U Hd Hc; inversion U; subst; simpl app.
  - cbn [constructCompilers]. unfold compile_one.
    apply targetDir_iff in Hd. now rewrite Hd, Hc.
  - cbn [constructCompilers].
    match goal with K : unit_compiles _ _ _ _ _ _ |- _ =>
      apply (unit_compiles_iff _ _ _ _ _ _ c) in K; rewrite K end.
    erewrite IH by eauto. unfold all_diagnostics; simpl. now rewrite fold_left_app.
Qed.
Lemma each_chdir_fails CTX ST (tc : toolchain CTX)
    (takeoff : nat -> CTX -> ST -> outcome (list violation * ST)) rules pre fc post :
  forall c cwd st frs cwd1 dir all st',
  units_compile tc false cwd pre frs cwd1 ->
  units_run takeoff rules (flat_map goodb frs) st all st' ->
  replaced $"\ " $" " (cc_directory (snd fc)) dir ->
  tc_chdir tc cwd1 dir = None ->
  invoke_each tc takeoff rules (pre ++ fc :: post) c cwd st
  = (after_analysis c (all_diagnostics frs) all, cwd1, Exc (chdirError dir)).
Proof.
  induction pre as [|x pre IH]; intros c cwd st frs cwd1 dir all st' U R Hd Hc; inversion U; subst; simpl app.
  - inversion R; subst. cbn [invoke_each]. unfold invoke, constructCompilers, compile_one.
    apply targetDir_iff in Hd. rewrite Hd, Hc.
    unfold after_analysis, all_diagnostics. simpl. rewrite !app_nil_r. now destruct c.
  - simpl in R. apply units_run_app in R as (a1 & st1 & a2 & -> & R1 & R2).
    cbn [invoke_each]. erewrite (invoke_units tc takeoff rules [x]).
    2:{ econstructor; eauto. constructor. }
    2:{ simpl. rewrite app_nil_r. exact R1. }
    erewrite IH by eauto. rewrite after_analysis_app. unfold all_diagnostics; simpl.
    now rewrite app_nil_r.
Qed.

Theorem c34_failed_directory_change_aborts : forall (CTX ST : Type) (tc : toolchain CTX)
    (takeoff : nat -> CTX -> ST -> outcome (list violation * ST)) rules k sources c cwd st
    pre fc post frs cwd1 dir,
  commands_of tc sources = pre ++ fc :: post ->
  units_compile tc false cwd pre frs cwd1 ->
  replaced $"\ " $" " (cc_directory (snd fc)) dir ->
  tc_chdir tc cwd1 dir = None ->
  (exists c' what, run tc takeoff rules true k sources c cwd st = (c', Exc what)
     /\ (exists a b, what = a ++ dir ++ b) /\ c_collection c' = c_collection c)
  /\ (forall ctxs all st', good_units frs ctxs -> units_run takeoff rules ctxs st all st' ->
      exists c' what, run tc takeoff rules false k sources c cwd st = (c', Exc what)
        /\ (exists a b, what = a ++ dir ++ b)
        /\ c_collection c' = c_collection c ++ map (fun per_rule => recordable (concat per_rule)) all).
Proof.
  intros CTX ST tc takeoff rules k sources c cwd st pre fc post frs cwd1 dir E U Hd Hc.
  assert (W : exists a b, chdirError dir = a ++ dir ++ b).
  { unfold chdirError. do 2 eexists. reflexivity. }
  unfold run, constructCompileCommands. rewrite commands_loop_eq. cbn [fst app].
  fold (commands_of tc sources). rewrite E. split.
  - unfold invoke. erewrite cc_chdir_fails by eauto.
    do 2 eexists. split; [reflexivity|]. split; auto. now rewrite dispatch_plain.
  - intros ctxs all st' G R. apply good_units_iff in G. subst.
    erewrite each_chdir_fails by eauto. do 2 eexists. split; [reflexivity|]. split; auto.
Qed.

(** ** C35 *)
Theorem c35_modes_agree : forall (CTX ST : Type) (tc : toolchain CTX)
    (takeoff : nat -> CTX -> ST -> outcome (list violation * ST)) rules k sources c cwd st c' st',
  run tc takeoff rules true k sources c cwd st = (c', Val st')
  <-> run tc takeoff rules false k sources c cwd st = (c', Val st').
Proof.
  intros CTX ST tc takeoff rules k sources c cwd st c' st'.
  assert (X : forall g g', run tc takeoff rules g k sources c cwd st = (c', Val st') ->
              run tc takeoff rules g' k sources c cwd st = (c', Val st')).
  { intros g g' H. apply run_inv in H as (frs & cwd1 & all & U & R & K).
    unfold run, constructCompileCommands. rewrite commands_loop_eq. cbn [fst app].
    fold (commands_of tc sources).
    assert (E : (if g' then invoke tc takeoff rules (commands_of tc sources) c cwd st
                 else invoke_each tc takeoff rules (commands_of tc sources) c cwd st)
                = (after_analysis c (all_diagnostics frs) all, cwd1, Val st')).
    { destruct g'; [apply invoke_units | apply invoke_each_units]; auto. }
    rewrite E. destruct k.
    - destruct K as (frs2 & cwd2 & U2 & ->). now rewrite (csa_units _ _ _ _ _ _ U2).
    - now subst. }
  split; apply X.
Qed.

(** ** C36 *)
Theorem c36_plain_buckets : forall ds c,
  exists errs warns,
    fold_left (HandleDiagnostic false) ds c
    = {| c_collection := c_collection c; c_errors := c_errors c ++ errs;
         c_warnings := c_warnings c ++ warns; c_bugs := c_bugs c |}
    /\ shows_where is_error ds errs /\ shows_where is_warning ds warns.
Proof.
  intros. exists (map dviol (filter errorb ds)), (map dviol (filter warnb ds)).
  split; [apply dispatch_plain|]. split.
  - exists (filter errorb ds). split; [|apply map_dviol_shown]. apply filter_sublist_where, errorb_iff.
  - exists (filter warnb ds). split; [|apply map_dviol_shown]. apply filter_sublist_where, warnb_iff.
Qed.
Theorem c36_checker_buckets : forall ds c,
  exists bugs,
    fold_left (HandleDiagnostic true) ds c
    = {| c_collection := c_collection c; c_errors := c_errors c; c_warnings := c_warnings c;
         c_bugs := c_bugs c ++ bugs |}
    /\ Forall2 shown_at ds bugs.
Proof.
  intros. exists (map dviol ds). split; [apply dispatch_checker | apply map_dviol_shown].
Qed.
(** With the static analyzer enabled, errors and warnings come from the first pass and bugs from
    the second. *)
Theorem c36_static_analyzer_buckets : forall (CTX ST : Type) (tc : toolchain CTX)
    (takeoff : nat -> CTX -> ST -> outcome (list violation * ST)) rules g sources cwd st c' st',
  run tc takeoff rules g true sources c_empty cwd st = (c', Val st') ->
  exists frs cwd1 frs2 cwd2,
    units_compile tc false cwd (commands_of tc sources) frs cwd1
    /\ units_compile tc true cwd1 (commands_of tc sources) frs2 cwd2
    /\ shows_where is_error (all_diagnostics frs) (c_errors c')
    /\ shows_where is_warning (all_diagnostics frs) (c_warnings c')
    /\ Forall2 shown_at (all_diagnostics frs2) (c_bugs c').
Proof.
  intros CTX ST tc takeoff rules g sources cwd st c' st' H.
  apply run_inv in H as (frs & cwd1 & all & U & R & frs2 & cwd2 & U2 & ->).
  exists frs, cwd1, frs2, cwd2. split; auto. split; auto. rewrite dispatch_checker. cbn.
  split; [|split; [|apply map_dviol_shown]].
  - exists (filter errorb (all_diagnostics frs)). split; [|apply map_dviol_shown]. apply filter_sublist_where, errorb_iff.
  - exists (filter warnb (all_diagnostics frs)). split; [|apply map_dviol_shown]. apply filter_sublist_where, warnb_iff.
Qed.
(** Against the same run without it: if the plain compilations go the same with both actions,
    enabling the analyzer only adds bugs. *)
Theorem c36_static_analyzer_run : forall (CTX ST : Type) (tc : toolchain CTX) frontend
    (takeoff : nat -> CTX -> ST -> outcome (list violation * ST)) rules g sources c cwd st c1 c2 st1 st2,
  run (with_action tc frontend false) takeoff rules g false sources c cwd st = (c1, Val st1) ->
  run (with_action tc frontend true) takeoff rules g true sources c cwd st = (c2, Val st2) ->
  (forall frs cwd', units_compile (with_action tc frontend true) false cwd (commands_of tc sources) frs cwd' ->
     units_compile (with_action tc frontend false) false cwd (commands_of tc sources) frs cwd') ->
  st1 = st2 /\ c_collection c2 = c_collection c1 /\ c_errors c2 = c_errors c1
  /\ c_warnings c2 = c_warnings c1
  /\ exists frs cwd1 cwd2 bugs, units_compile (with_action tc frontend true) true cwd1 (commands_of tc sources) frs cwd2
      /\ c_bugs c2 = c_bugs c1 ++ bugs /\ Forall2 shown_at (all_diagnostics frs) bugs.
Proof.
  intros CTX ST tc frontend takeoff rules g sources c cwd st c1 c2 st1 st2 H1 H2 Same.
  apply run_inv in H2 as (frs & cwd1 & all & U & R & frs2 & cwd2 & U2 & ->). apply Same in U.
  assert (E' : run (with_action tc frontend false) takeoff rules g false sources c cwd st = (after_analysis c (all_diagnostics frs) all, Val st2)).
  { unfold run, constructCompileCommands. rewrite commands_loop_eq. cbn [fst app].
    fold (commands_of (with_action tc frontend false) sources).
    destruct g; [erewrite invoke_units by eauto | erewrite invoke_each_units by eauto]; reflexivity. }
  rewrite E' in H1. inversion H1; subst. rewrite dispatch_checker. simpl. repeat split; auto.
  exists frs2, cwd1, cwd2, (map dviol (all_diagnostics frs2)). repeat split; auto. apply map_dviol_shown.
Qed.

(** ** A concrete run meeting the hypotheses of C34-C36 *)
Definition exd (l : level) : diagnostic :=
  {| d_level := l; d_hasSourceManager := true; d_filename := $"a.c"; d_isMacro := false;
     d_expansionFilename := []; d_line := 3; d_column := 4; d_message := $"m" |}.
Definition extc : toolchain nat :=
  {| tc_abspath := fun s => s;
     tc_db := fun p => [Build_command ($"/w\ " ++ p) [$"cc"; p; $"-fsyntax-only"]];
     tc_adjust := fun l _ => l;
     tc_mainExecutable := $"oclint";
     tc_jobs := fun argv => ([Build_job true $"clang" argv], [], []);
     tc_chdir := fun _ d => if str_eqb d $"/w gone" then None else Some d;
     tc_diagnosticsCreated := fun _ => true;
     tc_frontend := fun cwd _ =>
       if str_eqb cwd $"/w bad" then {| fr_diagnostics := [exd Warning; exd Error; exd Note]; fr_context := Some 9 |}
       else {| fr_diagnostics := [exd Warning]; fr_context := Some (length cwd) |} |}.
Definition exviol : violation :=
  {| v_rule := Some 0; v_path := $"a.c"; v_startLine := 1; v_startColumn := 1; v_endLine := 1;
     v_endColumn := 1; v_message := [] |}.
Definition extake (a : nat) (ctx st : nat) : outcome (list violation * nat) := Val (repeat exviol ctx, S st).
Definition exdv (l : level) : violation :=
  {| v_rule := None; v_path := $"a.c"; v_startLine := 3; v_startColumn := 4; v_endLine := 0;
     v_endColumn := 0; v_message := $"m" |}.

Example c34_case : forall g, run extc extake [0] g true [$"a"; $"bad"; $"ab"] c_empty $"/" 0
  = ({| c_collection := [repeat exviol 4; repeat exviol 5]; c_errors := [exdv Error];
        c_warnings := repeat (exdv Warning) 3; c_bugs := repeat (exdv Warning) 5 |}, Val 2).
Proof. intros [|]; vm_compute; reflexivity. Qed.
Example c35_case : exists c, run extc extake [0] true true [$"a"; $"bad"; $"ab"] c_empty $"/" 0 = (c, Val 2)
  /\ run extc extake [0] false true [$"a"; $"bad"; $"ab"] c_empty $"/" 0 = (c, Val 2) /\ c_collection c <> [].
Proof. eexists. split; [vm_compute; reflexivity|]. split; [vm_compute; reflexivity|discriminate]. Qed.
Example c34_abort_case :
  map (fun g => run extc extake [0] g false [$"a"; $"gone"; $"ab"] c_empty $"/" 0) [true; false]
  = [({| c_collection := []; c_errors := []; c_warnings := [exdv Warning]; c_bugs := [] |},
      Exc (chdirError $"/w gone"));
     ({| c_collection := [repeat exviol 4]; c_errors := []; c_warnings := [exdv Warning]; c_bugs := [] |},
      Exc (chdirError $"/w gone"))].
Proof. vm_compute. reflexivity. Qed.
Example c34_hypotheses : exists frs cwd' ctxs all st',
  units_compile extc false $"/" (commands_of extc [$"a"; $"bad"; $"ab"]) frs cwd'
  /\ good_units frs ctxs /\ units_run extake [0] ctxs 0 all st' /\ length ctxs = 2.
Proof.
  destruct (run extc extake [0] true false [$"a"; $"bad"; $"ab"] c_empty $"/" 0) as [c o] eqn:E.
  pose proof E as E'. vm_compute in E'. injection E' as <- <-.
  apply c34_completed_analysis_covers_good_units in E as (frs & cwd' & ctxs & all & U & G & R & K).
  exists frs, cwd', ctxs, all, 2. repeat split; auto.
  apply units_run_length in R. rewrite <- R.
  apply (f_equal (@length _)) in K. simpl in K. rewrite map_length in K. auto.
Qed.

(** Finding: the plain compilation of a run with the static analyzer enabled also runs the
    analysis action, and what that finds is recorded as a compiler warning. *)
Definition exfront (a : action) (cwd : str) (args : list str) : frontend_result nat :=
  match a with
  | SyntaxOnlyAction => {| fr_diagnostics := []; fr_context := Some 1 |}
  | AnalysisAction => {| fr_diagnostics := [exd Warning]; fr_context := Some 1 |}
  end.
Theorem c36_analyzer_only_adds_bugs_refuted : exists (tc : toolchain nat) frontend (takeoff : nat -> nat -> nat -> outcome (list violation * nat))
    rules g sources cwd st c1 c2 st1 st2,
  run (with_action tc frontend false) takeoff rules g false sources c_empty cwd st = (c1, Val st1)
  /\ run (with_action tc frontend true) takeoff rules g true sources c_empty cwd st = (c2, Val st2)
  /\ c_warnings c1 = [] /\ c_warnings c2 = [exdv Warning].
Proof. exists extc, exfront, extake, [0], true, [$"a"], $"/", 0. do 4 eexists. repeat split; vm_compute; reflexivity. Qed.
(** The hypothesis of the comparison is met where the action makes no difference to the first pass. *)
Example c36_case : exists c1 c2, let fe := fun (_ : action) => tc_frontend extc in
  run (with_action extc fe false) extake [0] true false [$"a"; $"bad"] c_empty $"/" 0 = (c1, Val 1)
  /\ run (with_action extc fe true) extake [0] true true [$"a"; $"bad"] c_empty $"/" 0 = (c2, Val 1)
  /\ (forall frs cwd', units_compile (with_action extc fe true) false $"/" (commands_of extc [$"a"; $"bad"]) frs cwd' ->
       units_compile (with_action extc fe false) false $"/" (commands_of extc [$"a"; $"bad"]) frs cwd')
  /\ length (c_warnings c1) = 2 /\ length (c_bugs c2) = 4.
Proof. do 2 eexists. cbn zeta. split; [vm_compute; reflexivity|]. split; [vm_compute; reflexivity|]. split; [auto|]. split; reflexivity. Qed.
Print Assumptions c36_static_analyzer_buckets.
Print Assumptions c36_analyzer_only_adds_bugs_refuted.
Print Assumptions c29_every_command_once_in_order.
Print Assumptions c30_plain_arguments.
Print Assumptions c31_analyzer_arguments.
Print Assumptions c32_replaces_every_occurrence.
Print Assumptions c33_others_raise.
Print Assumptions c34_rules_run_on_good_units.
Print Assumptions c34_completed_analysis_covers_good_units.
Print Assumptions c34_failed_directory_change_aborts.
Print Assumptions c35_modes_agree.
Print Assumptions c36_static_analyzer_run.
