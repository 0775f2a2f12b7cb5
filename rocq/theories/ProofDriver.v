(** * Proofs about the driver *)
From Verif Require Import Base BaseFacts ModelResults ModelConfig ModelFilter SpecFilter
  ProofFilter ModelDriver SpecDriver.
From Coq Require Import Lia.

(** ** Compile commands *)
Lemma commands_loop_eq abspath db sources acc err :
  commands_loop abspath db sources acc err
  = (acc ++ flat_map (fun s => map (pair (abspath s)) (db (abspath s))) sources,
     err ++ flat_map (fun s => match db (abspath s) with
                               | [] => [$"Skipping " ++ abspath s ++ $". Compile command not found." ++ [NL]]
                               | _ => [] end) sources).
Proof.
  revert acc err; induction sources as [|s sources IH]; intros; simpl.
  - now rewrite !app_nil_r.
  - destruct (db (abspath s)) eqn:E; rewrite IH; simpl.
    + now rewrite <- !app_assoc.
    + now rewrite <- !app_assoc.
Qed.

(** ** Argument vectors *)
Definition ungm (l : list str) : list str := filter (fun a => negb (str_eqb a $"-gmodules")) l.
Lemma ungm_sub l : sublist_where (fun a => a <> $"-gmodules") l (ungm l).
Proof. apply filter_sublist_where. intros a. now rewrite negb_true_iff, str_eqb_neq. Qed.

Lemma argv_loop_eq fuel pre mid post argv :
  length mid < fuel ->
  argv_loop fuel (pre ++ mid ++ post) (Z.of_nat (length pre)) (Z.of_nat (length pre + length mid)) argv
  = Val (argv ++ ungm mid).
Proof.
  revert fuel pre argv; induction mid as [|a mid IH]; intros fuel pre argv Hf.
  - simpl length. rewrite Nat.add_0_r. simpl ungm. rewrite app_nil_r.
    destruct fuel; simpl; now rewrite Z.eqb_refl.
  - destruct fuel as [|fuel]; [inversion Hf|]. simpl in Hf.
    unfold argv_loop; fold argv_loop.
    destruct (Z.eqb_spec (Z.of_nat (length pre)) (Z.of_nat (length pre + length (a :: mid)))) as [E|E].
    { simpl in E. lia. }
    destruct (Z.ltb_spec (Z.of_nat (length pre)) 0) as [L|L]; [lia|].
    rewrite Nat2Z.id. rewrite nth_error_app2 by lia. rewrite Nat.sub_diag. simpl nth_error.
    cbv iota.
    specialize (IH fuel (pre ++ [a]) (if negb (str_eqb a $"-gmodules") then argv ++ [a] else argv)).
    rewrite <- !app_assoc, app_length in IH. simpl length in IH. simpl app in IH.
    replace (Z.of_nat (length pre) + 1)%Z with (Z.of_nat (length pre + 1)) by lia.
    replace (length pre + length (a :: mid)) with (length pre + 1 + length mid) by (simpl; lia).
    simpl app. rewrite IH by lia.
    change (ungm (a :: mid)) with (if negb (str_eqb a $"-gmodules") then a :: ungm mid else ungm mid).
    generalize (ungm mid); intros u. simpl.
    match goal with |- context [negb ?b] => destruct b end; simpl; [reflexivity|].
    now rewrite <- app_assoc.
Qed.

Lemma buildArgv_plain exe program args :
  buildArgv exe (program :: args) false = Val (ungm (exe :: args) ++ [$"-D__OCLINT__"]).
Proof.
  unfold buildArgv. cbv iota.
  pose proof (argv_loop_eq (S (length (exe :: args))) [] (exe :: args) [] []) as H.
  rewrite app_nil_r in H.
  change (length (@nil str) + length (exe :: args)) with (length (exe :: args)) in H.
  change (Z.of_nat (length (@nil str))) with 0%Z in H.
  change ([] ++ exe :: args) with (exe :: args) in H.
  rewrite H by lia. reflexivity.
Qed.

Lemma buildArgv_checker exe program args last :
  buildArgv exe (program :: args ++ [last]) true
  = Val (exe :: $"--analyze" :: ungm args ++ [$"-D__OCLINT__"]).
Proof.
  unfold buildArgv. cbv iota.
  pose proof (argv_loop_eq (S (length (exe :: args ++ [last]))) [exe] args [last]
                [exe; $"--analyze"]) as H.
  change (Z.of_nat (length [exe])) with 1%Z in H.
  change ([exe] ++ args ++ [last]) with (exe :: args ++ [last]) in H.
  replace (Z.of_nat (length [exe] + length args)) with (Z.of_nat (length (exe :: args ++ [last])) - 1)%Z in H.
  2:{ cbn [length]. rewrite app_length. cbn [length]. lia. }
  rewrite H; [reflexivity|]. cbn [length]. rewrite app_length. cbn [length]. lia.
Qed.

Lemma buildArgv_checker_one exe program : buildArgv exe [program] true = UB.
Proof. reflexivity. Qed.

Lemma plain_argv_iff exe line argv : plain_argv exe line argv <-> buildArgv exe line false = Val argv.
Proof.
  split.
  - intros (program & args & kept & -> & H & ->). rewrite buildArgv_plain.
    now rewrite (sublist_where_det _ _ _ _ H (ungm_sub _)).
  - destruct line as [|program args]; [discriminate|].
    rewrite buildArgv_plain. intros [= <-].
    exists program, args, (ungm (exe :: args)). repeat split; auto. apply ungm_sub.
Qed.
Lemma analyzer_argv_iff exe line argv :
  analyzer_argv exe line argv <-> buildArgv exe line true = Val argv.
Proof.
  split.
  - intros (program & args & last & kept & -> & H & ->). rewrite buildArgv_checker.
    now rewrite (sublist_where_det _ _ _ _ H (ungm_sub _)).
  - destruct line as [|program args]; [discriminate|].
    destruct args as [|last args] using rev_ind; [discriminate|].
    rewrite buildArgv_checker. intros [= <-].
    exists program, args, last, (ungm args). repeat split; auto. apply ungm_sub.
Qed.
Lemma argv_iff (checker : bool) exe line argv :
  (if checker then analyzer_argv else plain_argv) exe line argv
  <-> buildArgv exe line checker = Val argv.
Proof. destruct checker; [apply analyzer_argv_iff | apply plain_argv_iff]. Qed.

(** ** Replacement *)
Lemma find_from_skip pre s p :
  find_from (pre ++ s) p (length pre)
  = match find_sub p s with Some n => Some (length pre + n) | None => None end.
Proof.
  unfold find_from. rewrite app_length.
  destruct (Nat.ltb_spec (length pre + length s) (length pre)); [lia|].
  rewrite skipn_app, skipn_all, Nat.sub_diag. reflexivity.
Qed.

Lemma replace_loop_ok old new fuel pre s :
  old <> [] -> length s <= fuel ->
  exists out, replaced old new s out
  /\ replace_loop fuel (pre ++ s) old new
       (match find_sub old s with Some n => Some (length pre + n) | None => None end)
     = Some (pre ++ out).
Proof.
  intros Hold. revert pre s; induction fuel as [|fuel IH]; intros pre s Hf.
  - destruct s as [|x s]; [|simpl in Hf; lia].
    exists []. split.
    + apply rp_none. intros a b E. destruct a, old; try discriminate; congruence.
    + destruct (find_sub old []) as [n|] eqn:E; [|reflexivity].
      destruct old; [congruence|discriminate].
  - destruct (find_sub old s) as [n|] eqn:E.
    + destruct (find_sub_some _ _ _ E) as (a & b & Eb & La & Hmin).
      destruct (IH (pre ++ a ++ new) b) as (out & Hout & Hrun).
      { rewrite Eb in Hf. rewrite !app_length in Hf. destruct old; [congruence|]. simpl in Hf. lia. }
      exists (a ++ new ++ out). split.
      * rewrite Eb. apply rp_first; auto.
        intros a' b' E'. rewrite La. apply (Hmin a' b'). now rewrite Eb.
      * simpl.
        assert (E1 : firstn (length pre + n) (pre ++ s) = pre ++ a).
        { rewrite firstn_app_2, Eb, <- La. now rewrite firstn_app_exact. }
        assert (E2 : skipn (length pre + n + length old) (pre ++ s) = b).
        { rewrite Eb, !app_assoc.
          replace (length pre + n + length old) with (length ((pre ++ a) ++ old))
            by (rewrite !app_length; lia).
          apply skipn_app_exact. }
        rewrite E1, E2.
        replace ((pre ++ a) ++ new ++ b) with ((pre ++ a ++ new) ++ b) by now rewrite <- !app_assoc.
        replace (length pre + n + length new) with (length (pre ++ a ++ new))
          by (rewrite !app_length; lia).
        rewrite find_from_skip, Hrun. now rewrite <- !app_assoc.
    + exists s. split; [|reflexivity].
      apply rp_none. intros a b E'. exact (proj1 (find_sub_none _ _) E a b E').
Qed.

Lemma replaced_det old new s o1 o2 :
  old <> [] -> replaced old new s o1 -> replaced old new s o2 -> o1 = o2.
Proof.
  intros Hold H. revert o2; induction H as [s Hn|a b out Hmin H IH]; intros o2 H2.
  - inversion H2; subst; auto. exfalso. eapply Hn; reflexivity.
  - inversion H2 as [s' Hn|a2 b2 out2 Hmin2 H2' E]; subst.
    + exfalso. eapply Hn; reflexivity.
    + assert (La : length a = length a2).
      { apply Nat.le_antisymm; [eapply Hmin | eapply Hmin2]; symmetry in E; eauto. }
      assert (Ea : a = a2).
      { apply (f_equal (firstn (length a))) in E. rewrite La in E at 1.
        now rewrite !firstn_app_exact in E. }
      subst a2. apply app_inv_head in E. apply app_inv_head in E. subst b2.
      now rewrite (IH _ H2').
Qed.

Lemma stringReplace_ok fuel s old new :
  old <> [] -> length s <= fuel ->
  exists out, replaced old new s out /\ stringReplace fuel s old new = Some out.
Proof.
  intros H1 H2. destruct (replace_loop_ok old new fuel [] s H1 H2) as (out & Hr & E).
  exists out. split; [exact Hr|]. unfold stringReplace.
  pose proof (find_from_skip [] s old) as F. simpl in F. rewrite F. exact E.
Qed.

Lemma replace_loop_empty fuel pre s new :
  replace_loop fuel (pre ++ s) [] new (Some (length pre)) = None.
Proof.
  revert pre; induction fuel as [|fuel IH]; intros pre; [reflexivity|]. simpl.
  rewrite firstn_app_exact, Nat.add_0_r, skipn_app_exact.
  replace (pre ++ new ++ s) with ((pre ++ new) ++ s) by now rewrite <- app_assoc.
  rewrite <- app_length, find_from_skip.
  replace (find_sub [] s) with (Some 0) by now destruct s.
  rewrite Nat.add_0_r. apply IH.
Qed.

Lemma targetDir_iff dir t : replaced $"\ " $" " dir t <-> targetDir dir = t.
Proof.
  destruct (stringReplace_ok (length dir) dir $"\ " $" ") as (out & Hr & E);
    [discriminate|auto|].
  unfold targetDir. rewrite E. split.
  - intros H. eapply replaced_det; eauto. discriminate.
  - now intros <-.
Qed.

(** ** Jobs *)
Lemma usable_iff jobs offload text args :
  usable_jobs jobs offload args <-> getCC1Arguments jobs offload text = Val args.
Proof.
  unfold usable_jobs, getCC1Arguments.
  assert (X : existsb (fun b : bool => b) offload = true <-> In true offload).
  { rewrite existsb_exists. split; [intros (b & H & ->); auto | intros H; now exists true]. }
  split.
  - intros (j & others & -> & Hm & Hc & Ht & ->). rewrite Hc, Ht, str_eqb_refl.
    destruct others as [|j2 others]; [reflexivity|].
    destruct Hm as [Hm|Hm]; [discriminate|]. apply X in Hm.
    simpl length. change (1 <? S (S (length others))) with true. cbv iota.
    rewrite Hm. reflexivity.
  - destruct jobs as [|j others]; [discriminate|].
    destruct ((1 <? length (j :: others)) && _) eqn:Em; [discriminate|].
    destruct (j_isCommand j) eqn:Ec; [|discriminate].
    destruct (str_eqb (j_tool j) $"clang") eqn:Et; [|discriminate].
    intros [= <-]. exists j, others. repeat split; auto; [|now apply str_eqb_eq].
    destruct others as [|j2 others]; [now left|right]. apply X.
    simpl length in Em. change (1 <? S (S (length others))) with true in Em. simpl in Em.
    now destruct (existsb _ offload).
Qed.

(** ** Diagnostics *)
Definition dviol (d : diagnostic) : violation :=
  let '(line, column, filename) := populateSourceLocation d in
  {| v_rule := None; v_path := filename; v_startLine := line; v_startColumn := column;
     v_endLine := 0; v_endColumn := 0; v_message := d_message d |}.
Definition errorb (d : diagnostic) := match d_level d with Error | Fatal => true | _ => false end.
Definition warnb (d : diagnostic) := match d_level d with Warning => true | _ => false end.
Lemma errorb_iff d : errorb d = true <-> is_error d.
Proof. unfold errorb, is_error. destruct (d_level d); split; intros; try tauto; try discriminate;
  destruct H; discriminate. Qed.
Lemma warnb_iff d : warnb d = true <-> is_warning d.
Proof. unfold warnb, is_warning. destruct (d_level d); split; intros; auto; discriminate. Qed.

Lemma dviol_shown d : shown_at d (dviol d).
Proof.
  unfold shown_at, dviol, populateSourceLocation.
  destruct (d_hasSourceManager d) eqn:E; simpl.
  - repeat split; auto; intros; try discriminate.
    + rewrite H0. now rewrite andb_false_r.
    + destruct (d_filename d); [congruence|reflexivity].
    + rewrite H0, H1. reflexivity.
  - repeat split; auto; intros; discriminate.
Qed.
Lemma shown_at_det d v : shown_at d v -> v = dviol d.
Proof.
  intros (H1 & H2 & H3 & H4 & H5 & H6). unfold dviol, populateSourceLocation.
  destruct v as [r p sl sc el ec m]; simpl in *; subst.
  destruct (d_hasSourceManager d); simpl.
  - destruct (H5 eq_refl) as (-> & -> & A & B & C).
    destruct (d_filename d) eqn:Ef; simpl.
    + destruct (d_isMacro d); [now rewrite C|now rewrite A].
    + rewrite B by discriminate. reflexivity.
  - destruct (H6 eq_refl) as (-> & -> & ->). reflexivity.
Qed.
Lemma map_dviol_shown l : Forall2 shown_at l (map dviol l).
Proof. induction l; simpl; constructor; auto. apply dviol_shown. Qed.

Lemma dispatch_plain ds c :
  fold_left (HandleDiagnostic false) ds c
  = {| c_collection := c_collection c;
       c_errors := c_errors c ++ map dviol (filter errorb ds);
       c_warnings := c_warnings c ++ map dviol (filter warnb ds);
       c_bugs := c_bugs c |}.
Proof.
  revert c; induction ds as [|d ds IH]; intros c; simpl.
  - rewrite !app_nil_r. now destruct c.
  - rewrite IH. unfold HandleDiagnostic, errorb, warnb, dviol.
    destruct (populateSourceLocation d) as [[l k] f] eqn:E.
    destruct (d_level d); simpl; unfold vs_addViolation; rewrite ?E, <- ?app_assoc; reflexivity.
Qed.
Lemma dispatch_checker ds c :
  fold_left (HandleDiagnostic true) ds c
  = {| c_collection := c_collection c; c_errors := c_errors c;
       c_warnings := c_warnings c; c_bugs := c_bugs c ++ map dviol ds |}.
Proof.
  revert c; induction ds as [|d ds IH]; intros c; simpl.
  - rewrite !app_nil_r. now destruct c.
  - rewrite IH. unfold HandleDiagnostic, dviol.
    destruct (populateSourceLocation d) as [[l k] f] eqn:E.
    simpl; unfold vs_addViolation; rewrite <- ?app_assoc; reflexivity.
Qed.

(** ** Compiling and running *)
Section Run.
  Context {CTX ST : Type}.
  Variable tc : toolchain CTX.
  Variable takeoff : nat -> CTX -> ST -> outcome (list violation * ST).
  Variable rules : list nat.

  Lemma unit_compiles_iff checker cwd fc cwd' fr c :
    unit_compiles tc checker cwd fc cwd' fr <->
    compile_one tc checker fc c cwd
    = (fold_left (HandleDiagnostic checker) (fr_diagnostics fr) c, cwd', Val fr).
  Proof.
    unfold unit_compiles, compile_one, newCompilerInvocation. split.
    - intros (dir & argv & args & Hd & Hc & Ha & Hu & Hg & ->).
      apply targetDir_iff in Hd. rewrite Hd, Hc. apply argv_iff in Ha. rewrite Ha. simpl.
      destruct (tc_jobs tc argv) as [[jobs off] text]. simpl in Hu.
      apply (usable_iff _ _ text) in Hu. rewrite Hu, Hg. reflexivity.
    - destruct (tc_chdir tc cwd (targetDir (cc_directory (snd fc)))) as [cwd1|] eqn:Ec; [|discriminate].
      destruct (buildArgv _ _ _) as [argv| |] eqn:Ea; simpl; try discriminate.
      destruct (tc_jobs tc argv) as [[jobs off] text] eqn:Ej.
      destruct (getCC1Arguments jobs off text) as [args| |] eqn:Eg; try discriminate.
      destruct (tc_diagnosticsCreated tc args) eqn:Ed; [|discriminate]. simpl.
      intros [= _ <- <-].
      exists (targetDir (cc_directory (snd fc))), argv, args.
      rewrite argv_iff, targetDir_iff, Ej. simpl. rewrite usable_iff. repeat split; eauto.
  Qed.

  Lemma compile_one_val checker fc c cwd c' cwd' fr :
    compile_one tc checker fc c cwd = (c', cwd', Val fr) ->
    c' = fold_left (HandleDiagnostic checker) (fr_diagnostics fr) c.
  Proof.
    unfold compile_one. destruct (tc_chdir _ _ _); [|discriminate].
    destruct (newCompilerInvocation _ _ _); try discriminate.
    destruct (tc_diagnosticsCreated _ _); [|discriminate]. simpl. intros [= <- _ <-]. reflexivity.
  Qed.
  Lemma compile_one_fail checker fc c cwd c' cwd' o :
    compile_one tc checker fc c cwd = (c', cwd', o) ->
    (forall fr, o <> Val fr) -> c' = c.
  Proof.
    unfold compile_one. destruct (tc_chdir _ _ _); [|now intros [= <- _ _]].
    destruct (newCompilerInvocation _ _ _); try now intros [= <- _ _].
    destruct (tc_diagnosticsCreated _ _); simpl; [|now intros [= <- _ _]].
    intros [= _ _ <-] H. now destruct (H _ eq_refl).
  Qed.
  (** The outcome of a compile does not depend on the collector. *)
  Lemma compile_one_indep checker fc c1 c2 cwd :
    snd (fst (compile_one tc checker fc c1 cwd)) = snd (fst (compile_one tc checker fc c2 cwd))
    /\ snd (compile_one tc checker fc c1 cwd) = snd (compile_one tc checker fc c2 cwd).
  Proof.
    unfold compile_one. destruct (tc_chdir _ _ _); [|auto].
    destruct (newCompilerInvocation _ _ _); try (split; reflexivity).
    destruct (tc_diagnosticsCreated _ _); split; reflexivity.
  Qed.

  Definition goodb (fr : frontend_result CTX) : list CTX :=
    match fr_context fr with
    | Some ctx => if negb (hasErrorOccurred (fr_diagnostics fr)) then [ctx] else []
    | None => []
    end.
  Lemma goodb_in fr ctx : In ctx (goodb fr) <-> good fr ctx.
  Proof.
    unfold goodb, good, hasErrorOccurred.
    change (fun d : diagnostic => match d_level d with Error | Fatal => true | _ => false end) with errorb.
    destruct (fr_context fr) as [x|]; simpl; [|split; [tauto|now intros [? _]]].
    destruct (existsb errorb (fr_diagnostics fr)) eqn:E; simpl.
    - split; [tauto|]. intros [_ H]. apply existsb_exists in E as (d & Hd & Hb).
      apply errorb_iff in Hb. now apply (H d).
    - split.
      + intros [<-|[]]. split; auto. intros d Hd He. apply errorb_iff in He.
        assert (existsb errorb (fr_diagnostics fr) = true) by (apply existsb_exists; eauto). congruence.
      + intros [[= ->] _]. auto.
  Qed.
  Lemma goodb_shape fr : (exists ctx, goodb fr = [ctx]) \/ goodb fr = [].
  Proof.
    unfold goodb. destruct (fr_context fr); auto. destruct (negb _); eauto.
  Qed.
  Lemma good_units_iff frs ctxs : good_units frs ctxs <-> ctxs = flat_map goodb frs.
  Proof.
    split.
    - induction 1 as [|fr ctx frs ctxs H H' IH|fr frs ctxs H H' IH]; simpl; auto.
      + apply goodb_in in H. rewrite <- IH. destruct (goodb_shape fr) as [[x E]|E]; rewrite E in *.
        * destruct H as [<-|[]]. reflexivity.
        * destruct H.
      + destruct (goodb_shape fr) as [[x E]|E]; rewrite E; auto.
        exfalso. apply (H x). apply goodb_in. rewrite E. simpl; auto.
    - intros ->. induction frs as [|fr frs IH]; simpl; [constructor|].
      destruct (goodb_shape fr) as [[x E]|E].
      + rewrite E. apply gu_good; auto. apply goodb_in. rewrite E. simpl; auto.
      + rewrite E. apply gu_bad; auto. intros ctx Hc. apply goodb_in in Hc. rewrite E in Hc. destruct Hc.
  Qed.

  Lemma cc_units cmds : forall c cwd acc frs cwd',
    units_compile tc false cwd cmds frs cwd' ->
    constructCompilers tc cmds c cwd acc
    = (fold_left (HandleDiagnostic false) (all_diagnostics frs) c, cwd', Val (acc ++ flat_map goodb frs)).
  Proof.
    induction cmds as [|fc cmds IH]; intros c cwd acc frs cwd' H; inversion H; subst; simpl.
    - now rewrite app_nil_r.
    - match goal with K : unit_compiles _ _ _ _ _ _ |- _ => apply (unit_compiles_iff _ _ _ _ _ c) in K;
        rewrite K end.
      match goal with K : units_compile _ _ _ _ _ _ |- _ => erewrite IH by exact K end.
      unfold all_diagnostics; simpl. rewrite fold_left_app. f_equal. f_equal.
      unfold goodb at 2. destruct (fr_context fr); simpl; auto.
      destruct (negb _); simpl; auto. now rewrite <- app_assoc.
  Qed.
  Lemma cc_units_inv cmds : forall c cwd acc c' cwd' ctxs,
    constructCompilers tc cmds c cwd acc = (c', cwd', Val ctxs) ->
    exists frs, units_compile tc false cwd cmds frs cwd'.
  Proof.
    induction cmds as [|fc cmds IH]; intros c cwd acc c' cwd' ctxs H; simpl in H.
    - inversion H; subst. exists []. constructor.
    - destruct (compile_one tc false fc c cwd) as [[c1 cwd1] [fr| |]] eqn:E; try discriminate.
      destruct (IH _ _ _ _ _ _ H) as [frs Hfrs].
      exists (fr :: frs). econstructor; eauto.
      pose proof (compile_one_val _ _ _ _ _ _ _ E). subst c1.
      apply (unit_compiles_iff _ _ _ _ _ c). exact E.
  Qed.
  Lemma csa_units cmds : forall c cwd frs cwd',
    units_compile tc true cwd cmds frs cwd' ->
    invokeClangStaticAnalyzer tc cmds c cwd
    = (fold_left (HandleDiagnostic true) (all_diagnostics frs) c, cwd', Val tt).
  Proof.
    induction cmds as [|fc cmds IH]; intros c cwd frs cwd' H; inversion H; subst; simpl; auto.
    match goal with K : unit_compiles _ _ _ _ _ _ |- _ => apply (unit_compiles_iff _ _ _ _ _ c) in K;
        rewrite K end.
    match goal with K : units_compile _ _ _ _ _ _ |- _ => erewrite IH by exact K end.
    unfold all_diagnostics; simpl. now rewrite fold_left_app.
  Qed.
  Lemma csa_units_inv cmds : forall c cwd c' cwd' u,
    invokeClangStaticAnalyzer tc cmds c cwd = (c', cwd', Val u) ->
    exists frs, units_compile tc true cwd cmds frs cwd'.
  Proof.
    induction cmds as [|fc cmds IH]; intros c cwd c' cwd' u H; simpl in H.
    - inversion H; subst. exists []. constructor.
    - destruct (compile_one tc true fc c cwd) as [[c1 cwd1] [fr| |]] eqn:E; try discriminate.
      destruct (IH _ _ _ _ _ H) as [frs Hfrs].
      exists (fr :: frs). econstructor; eauto.
      pose proof (compile_one_val _ _ _ _ _ _ _ E). subst c1.
      apply (unit_compiles_iff _ _ _ _ _ c). exact E.
  Qed.

  (** What a completed analysis leaves in the collector. *)
  Definition after_analysis (c : collector) (ds : list diagnostic) (all : list (list (list violation)))
    : collector :=
    {| c_collection := c_collection c ++ map (fun pr => recordable (concat pr)) all;
       c_errors := c_errors c ++ map dviol (filter errorb ds);
       c_warnings := c_warnings c ++ map dviol (filter warnb ds);
       c_bugs := c_bugs c |}.

  Lemma units_run_app a : forall b st all st',
    units_run takeoff rules (a ++ b) st all st' <->
    exists all1 st1 all2, all = all1 ++ all2 /\ units_run takeoff rules a st all1 st1
      /\ units_run takeoff rules b st1 all2 st'.
  Proof.
    induction a as [|x a IH]; intros b st all st'; simpl; split.
    - intros H. exists [], st, all. repeat split; auto. constructor.
    - intros (all1 & st1 & all2 & -> & H1 & H2). inversion H1; subst. exact H2.
    - intros H. inversion H; subst.
      match goal with K : units_run _ _ (a ++ b) _ _ _ |- _ => apply IH in K as (a1 & s1 & a2 & -> & K1 & K2) end.
      exists (per_rule :: a1), s1, a2. repeat split; auto. econstructor; eauto.
    - intros (all1 & st1' & all2 & -> & H1 & H2). inversion H1; subst. simpl.
      econstructor; eauto. apply IH. eauto 10.
  Qed.

  Lemma invoke_units cmds c cwd st frs cwd' all st' :
    units_compile tc false cwd cmds frs cwd' ->
    units_run takeoff rules (flat_map goodb frs) st all st' ->
    invoke tc takeoff rules cmds c cwd st
    = (after_analysis c (all_diagnostics frs) all, cwd', Val st').
  Proof.
    intros H1 H2. unfold invoke. rewrite (cc_units _ _ _ _ _ _ H1). simpl.
    rewrite (analyze_run _ _ _ _ _ _ _ H2). rewrite dispatch_plain. reflexivity.
  Qed.
  Lemma invoke_units_inv cmds c cwd st c' cwd' st' :
    invoke tc takeoff rules cmds c cwd st = (c', cwd', Val st') ->
    exists frs all, units_compile tc false cwd cmds frs cwd'
      /\ units_run takeoff rules (flat_map goodb frs) st all st'.
  Proof.
    unfold invoke. destruct (constructCompilers tc cmds c cwd []) as [[c1 cwd1] [ctxs| |]] eqn:E;
      try discriminate.
    destruct (cc_units_inv _ _ _ _ _ _ _ E) as [frs Hf].
    rewrite (cc_units _ _ _ _ _ _ Hf) in E. inversion E; subst. simpl.
    destruct (analyze _ _ _ _ _) as [c2 o] eqn:Ea. intros [= _ <- ->].
    destruct (analyze_val _ _ _ _ _ _ _ Ea) as [all Hall]. eauto.
  Qed.

  Lemma after_analysis_app c ds1 ds2 a1 a2 :
    after_analysis (after_analysis c ds1 a1) ds2 a2 = after_analysis c (ds1 ++ ds2) (a1 ++ a2).
  Proof.
    unfold after_analysis; simpl. now rewrite !filter_app, !map_app, <- !app_assoc.
  Qed.

  Lemma invoke_each_units cmds : forall c cwd st frs cwd' all st',
    units_compile tc false cwd cmds frs cwd' ->
    units_run takeoff rules (flat_map goodb frs) st all st' ->
    invoke_each tc takeoff rules cmds c cwd st
    = (after_analysis c (all_diagnostics frs) all, cwd', Val st').
  Proof.
    induction cmds as [|fc cmds IH]; intros c cwd st frs cwd' all st' H1 H2; inversion H1; subst.
    - inversion H2; subst. unfold after_analysis; simpl. rewrite !app_nil_r. now destruct c.
    - simpl in H2. apply units_run_app in H2 as (a1 & st1 & a2 & -> & R1 & R2).
      simpl. erewrite (invoke_units [fc]); [| |].
      2:{ econstructor; eauto. constructor. }
      2:{ simpl. rewrite app_nil_r. exact R1. }
      erewrite IH by eauto. rewrite after_analysis_app.
      unfold all_diagnostics; simpl. now rewrite app_nil_r.
  Qed.
  Lemma invoke_each_units_inv cmds : forall c cwd st c' cwd' st',
    invoke_each tc takeoff rules cmds c cwd st = (c', cwd', Val st') ->
    exists frs all, units_compile tc false cwd cmds frs cwd'
      /\ units_run takeoff rules (flat_map goodb frs) st all st'.
  Proof.
    induction cmds as [|fc cmds IH]; intros c cwd st c' cwd' st' H; simpl in H.
    - inversion H; subst. exists [], []. split; constructor.
    - destruct (invoke tc takeoff rules [fc] c cwd st) as [[c1 cwd1] [st1| |]] eqn:E; try discriminate.
      destruct (invoke_units_inv _ _ _ _ _ _ _ E) as (frs1 & all1 & U1 & R1).
      destruct (IH _ _ _ _ _ _ H) as (frs2 & all2 & U2 & R2).
      inversion U1; subst. match goal with K : units_compile _ _ _ [] _ _ |- _ => inversion K; subst end.
      simpl in R1. rewrite app_nil_r in R1.
      exists (fr :: frs2), (all1 ++ all2). split; [econstructor; eauto|].
      simpl. apply units_run_app. eauto 10.
  Qed.
End Run.
