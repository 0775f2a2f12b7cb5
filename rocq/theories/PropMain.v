(** * Properties C23-C28: the process *)
From Verif Require Import Base BaseFacts ModelResults ModelConfig ModelFilter ModelOptions ModelMain
  SpecResults SpecFilter SpecOptions SpecMain ProofResults ProofFilter ProofOptions ProofMain.

(** ** A concrete world: two rule libraries, one of them listed twice, a text reporter. *)
Definition exm_cl : cmdline :=
  {| cl_output := None; cl_reportType := None; cl_R := [$"/r"; $"/nope"; $"/r"]; cl_rc := [];
     cl_rule := []; cl_disableRule := []; cl_maxP1 := None; cl_maxP2 := None; cl_maxP3 := None;
     cl_globalAnalysis := None; cl_clangChecker := None; cl_duplications := None |}.
Definition exm_viol (n : nat) : violation :=
  {| v_rule := Some n; v_path := $"a.m"; v_startLine := 1; v_startColumn := 1; v_endLine := 1;
     v_endColumn := 2; v_message := [] |}.
Definition exm_reporter : reporter :=
  {| rp_name := $"text"; rp_report := fun _ =>
       RAsk QViolations (fun l => RDone (Val (repeat "v"%char (length l)))) |}.
Definition exm_world (prio : Z) (out : option str) (acc : nat) : world :=
  {| w_list := fun d => if str_eqb d $"/r" then Some [$"."; $".."; $"a.so"; $"b.so"]
                        else if str_eqb d $"/b/../lib/oclint/reporters"
                        then Some [$"x.so"; $"t.so"; $"broken.so"] else None;
     w_rulelib := fun p => if str_eqb p $"/r/a.so" then Some [1] else
                           if str_eqb p $"/r/b.so" then Some [2; 3] else None;
     w_replib := fun p =>
       if str_eqb p $"/b/../lib/oclint/reporters/x.so"
       then Some (Some {| rp_name := $"xml"; rp_report := fun _ => RDone (Val []) |}) else
       if str_eqb p $"/b/../lib/oclint/reporters/t.so" then Some (Some exm_reporter) else None;
     w_read := fun _ => None; w_yaml := fun _ => cf_initial;
     w_env := {| en_cwd := Some $"/w"; en_home := None; en_bin := $"/b" |};
     w_cmdline := Some {| cl_output := out; cl_reportType := None; cl_R := cl_R exm_cl; cl_rc := [];
        cl_rule := []; cl_disableRule := []; cl_maxP1 := None; cl_maxP2 := None; cl_maxP3 := None;
        cl_globalAnalysis := None; cl_clangChecker := None; cl_duplications := None |};
     w_listRules := false; w_canOpen := fun _ => true; w_accepts := fun _ => acc;
     w_rules := fun a => {| ri_name := $"r"; ri_identifier := $"R"; ri_category := $"c"; ri_priority := prio |};
     w_driver := fun sel => (c_add c_empty (map exm_viol sel), Val tt);
     w_hash := fun _ => 0%Z |}.

(** ** C23 *)
Theorem c23_exit_code_table : forall w ev n, main w = (ev, Exit n) -> exits w n.
Proof. intros w ev n H. apply (main_exit _ _ _ H). Qed.

Theorem c23_one_code_applies : forall w n m, exits w n -> exits w m -> n = m.
Proof. exact exits_det. Qed.

Theorem c23_well_behaved_run_exits : forall w, well_behaved w -> exists ev n, main w = (ev, Exit n).
Proof. exact main_returns. Qed.

Example c23_well_behaved_case : forall p o a, well_behaved (exm_world p o a).
Proof.
  intros p o a. repeat split.
  - intros cl [= <-]. constructor.
  - intros q. simpl. destruct (str_eqb q _); [discriminate|]. destruct (str_eqb q _); discriminate.
  - discriminate.
  - intros sel v. simpl. rewrite app_nil_r. intros H. apply in_map_iff in H as (x & <- & _). discriminate.
  - intros q r c dup. simpl. destruct (str_eqb q _).
    + intros [= <-] H. inversion H.
    + destruct (str_eqb q _); [|discriminate]. intros [= <-] H. inversion H; subst.
      match goal with X : session _ _ _ |- _ => inversion X end.
Qed.

Example c23_case :
  snd (main (exm_world 2 None 0)) = Exit 0 /\ snd (main (exm_world 1 None 0)) = Exit 5
  /\ fst (main (exm_world 1 None 0)) =
     [EAnalyze [1; 2; 3]; EOut $"vvv"; errorLine $"violations exceed threshold";
      EErr ($"P1=3[0] P2=0[10] P3=0[20] " ++ [NL])].
Proof. repeat split; vm_compute; reflexivity. Qed.

(** ** C24 *)
Theorem c24_success_iff : forall w ev n, main w = (ev, Exit n) ->
  (n = 0%Z <->
   exists s rules r c text, options_are w s /\ rules_loaded w s rules /\ reporter_found w s r
     /\ analysed w s rules c /\ reported w s r c text /\ c_errors c = []
     /\ forall l, shows (allowDuplicatedViolations s) c QViolations l ->
          (count_priority w 1 l <= maxP1 s /\ count_priority w 2 l <= maxP2 s
           /\ count_priority w 3 l <= maxP3 s)%Z).
Proof.
  intros w ev n H. rewrite (exit_inv_0 _ _ _ H). split.
  - intros X. remember 0%Z as z eqn:E in X. destruct X; try discriminate.
    exists s, rules, r, c, text. repeat (split; [assumption|]). assumption.
  - intros (s & rules & r & c & text & H1 & H2 & H3 & H4 & H5 & H6 & H7).
    exact (x_success w s rules r c text H1 H2 H3 H4 H5 H6 H7).
Qed.

(** On success the report text was handed over in full; a report file holds it in full
    whenever the file system accepts that many bytes. *)
Theorem c24_success_report_delivered : forall w ev, main w = (ev, Exit 0) ->
  exists s r c text e, options_are w s /\ reporter_found w s r
    /\ session (shows (allowDuplicatedViolations s) c) (rp_report r c) (Val text) /\ In e ev
    /\ ((o_value (argOutput s) = $"-" /\ e = EOut text)
        \/ (o_value (argOutput s) <> $"-" /\ exists path, outputPath (w_env w) s = Val path
            /\ (length text <= w_accepts w path -> e = EFile path text))).
Proof.
  intros w ev H. destruct (main_exit _ _ _ H) as [_ T].
  remember 0%Z as z eqn:E in T. destruct T; try discriminate; [lia|].
  exists s, r, c, text, ev. destruct H6 as [H6 _]. repeat (split; [assumption|]).
  split; [apply in_app_iff; simpl; auto|].
  destruct H7 as [H7|(H7 & path & P & ->)]; auto.
  right. split; auto. exists path. split; auto. intros L. now rewrite firstn_all2.
Qed.

(** Finding: write errors are never checked, so exit 0 does not mean the report is there. *)
Theorem c24_success_means_report_on_disk_refuted : exists w ev path text s r c,
  main w = (ev, Exit 0) /\ options_are w s /\ reporter_found w s r /\ reported w s r c text
  /\ analysed w s [1; 2; 3] c
  /\ outputPath (w_env w) s = Val path /\ text <> [] /\ In (EFile path []) ev
  /\ ~ In (EFile path text) ev.
Proof.
  set (w := exm_world 2 (Some $"o") 0).
  assert (H : main w = ([EAnalyze [1; 2; 3]; EFile $"/w/o" []], Exit 0)) by (vm_compute; reflexivity).
  destruct (main_exit _ _ _ H) as [X T].
  remember 0%Z as z eqn:E in T. remember [EAnalyze [1; 2; 3]; EFile $"/w/o" []] as evs eqn:EE in T.
  destruct T; try discriminate.
  cbn in EE. inversion EE; subst sel.
  assert (rules = [1; 2; 3]) as ->.
  { eapply (rules_loaded_det w s); eauto.
    assert (A : exists ls, consumeArgRulesPath w (rulesPath (w_env w) s) l_initial = (ls, Val tt)
                /\ l_rules ls = registry [1;2;3]).
    { destruct H1 as (cl & Hcl & Hp). cbn in Hcl. inversion Hcl; subst cl.
      vm_compute in Hp. inversion Hp; subst s. eexists. split; vm_compute; reflexivity. }
    destruct A as (ls & A1 & A2). destruct (rules_loaded_intro _ _ _ A1) as (rs & B1 & B2 & B3).
    assert (rs = [1;2;3]) as ->.
    { rewrite B1 in A2. rewrite !registry_eq in A2. destruct rs as [|a rs]; [discriminate|].
      injection A2 as -> A2. destruct rs as [|b rs]; [discriminate|]. injection A2 as -> A2.
      destruct rs as [|d rs]; [discriminate|]. injection A2 as -> A2.
      now destruct rs. }
    exists (asked_list w (rulesPath (w_env w) s)). split; [apply asked_list_ok|].
    repeat split; auto. discriminate. }
  assert (Hc : c = c_add c_empty (map exm_viol [1;2;3])).
  { destruct H4 as (sel & F & D). rewrite filteredRules_eq in F. vm_compute in H5.
    destruct H1 as (cl & Hcl & Hp). cbn in Hcl. inversion Hcl; subst cl.
    vm_compute in Hp. inversion Hp; subst s. vm_compute in F. inversion F; subst sel.
    vm_compute in D. inversion D. reflexivity. }
  assert (Ht : text = $"vvv").
  { destruct H6 as [S _].
    assert (Hr : r = exm_reporter).
    { apply loadReporter_found in H3. destruct H1 as (cl & Hcl & Hp). cbn in Hcl.
      inversion Hcl; subst cl. vm_compute in Hp. inversion Hp; subst s.
      vm_compute in H3. inversion H3. reflexivity. }
    subst r c. destruct H1 as (cl & Hcl & Hp). cbn in Hcl.
      inversion Hcl; subst cl. vm_compute in Hp. inversion Hp; subst s.
    assert (S2 : session (shows false (c_add c_empty (map exm_viol [1;2;3])))
                  (rp_report exm_reporter (c_add c_empty (map exm_viol [1;2;3]))) (Val $"vvv")).
    { destruct (run_reporting_session w false _ (rp_report exm_reporter c_empty) (getResults false)
        (fst (run_reporting w (c_add c_empty (map exm_viol [1;2;3])) (getResults false)
                (rp_report exm_reporter c_empty))) _
        (getResults_consistent w false (c_add c_empty (map exm_viol [1;2;3])))
        (surjective_pairing _)) as [S3 _]. exact S3. }
    pose proof (session_det _ _ _ _ _ S S2) as Q. congruence. }
  exists w, [EAnalyze [1; 2; 3]; EFile $"/w/o" []], $"/w/o", $"vvv", s, r, c.
  split; [exact H|]. split; [assumption|]. split; [assumption|]. split; [now rewrite <- Ht|].
  split; [assumption|].
  split.
  { destruct H1 as (cl & Hcl & Hp). cbn in Hcl. inversion Hcl; subst cl.
    vm_compute in Hp. inversion Hp; subst s. vm_compute. reflexivity. }
  split; [discriminate|]. split; [simpl; auto|].
  intros [Q|[Q|[]]]; discriminate.
Qed.
Example c24_case : main (exm_world 2 (Some $"o") 99) = ([EAnalyze [1; 2; 3]; EFile $"/w/o" $"vvv"], Exit 0)
  /\ main (exm_world 2 None 0) = ([EAnalyze [1; 2; 3]; EOut $"vvv"], Exit 0).
Proof. split; vm_compute; reflexivity. Qed.

(** ** C25 *)

(** Raising limits keeps a successful run successful. *)
Theorem c25_raising_limits_keeps_success : forall w cl a1 a2 a3 b1 b2 b3 ev ev' n,
  (a1 <= b1)%Z -> (a2 <= b2)%Z -> (a3 <= b3)%Z ->
  main (with_cmdline w (with_limits cl a1 a2 a3)) = (ev, Exit 0) ->
  main (with_cmdline w (with_limits cl b1 b2 b3)) = (ev', Exit n) -> n = 0%Z.
Proof.
  intros w cl a1 a2 a3 b1 b2 b3 ev ev' n L1 L2 L3 H1 H2.
  rewrite (exit_inv_0 _ _ _ H2).
  destruct (main_exit _ _ _ H1) as [X _].
  remember 0%Z as z eqn:E in X. destruct X; try discriminate.
  destruct H as (cl0 & Hcl & Hp). cbn in Hcl. inversion Hcl; subst cl0. clear Hcl.
  destruct (with_limits_process _ _ _ _ _ _ _ _ Hp) as (M1 & M2 & M3 & O).
  destruct (O b1 b2 b3) as (t & Ht & Hst).
  destruct (with_limits_process _ _ _ _ _ _ _ _ Ht) as (N1 & N2 & N3 & _).
  apply (x_success _ t rules r c text).
  - exists (with_limits cl b1 b2 b3). auto.
  - eapply rules_loaded_cmd; eauto.
  - eapply reporter_found_cmd; eauto.
  - eapply analysed_cmd; eauto.
  - eapply reported_cmd; eauto.
  - assumption.
  - intros l Hl. rewrite <- (dup_ext _ _ Hst) in Hl.
    match goal with W : within_limits _ _ _ |- _ => specialize (W l Hl); rename W into H6' end.
    unfold count_priority in *. cbn in *. rewrite M1, M2, M3 in H6'. rewrite N1, N2, N3. lia.
Qed.

(** Any two runs with the same rules: when the second has limits at most those of the first,
    shows duplicates if the first does, and has recorded at least the violations of the
    first, it does not succeed where the first exceeded a limit. *)
Theorem c25_exceeding_is_monotone : forall w1 w2 ev1 ev2 s1 s2 rules1 rules2 c1 c2,
  main w1 = (ev1, Exit 5) -> main w2 = (ev2, Exit 0) ->
  w_rules w1 = w_rules w2 ->
  options_are w1 s1 -> options_are w2 s2 ->
  rules_loaded w1 s1 rules1 -> rules_loaded w2 s2 rules2 ->
  analysed w1 s1 rules1 c1 -> analysed w2 s2 rules2 c2 ->
  (maxP1 s2 <= maxP1 s1)%Z -> (maxP2 s2 <= maxP2 s1)%Z -> (maxP3 s2 <= maxP3 s1)%Z ->
  (allowDuplicatedViolations s1 = true -> allowDuplicatedViolations s2 = true) ->
  subseq (concat (c_collection c1)) (concat (c_collection c2)) ->
  False.
Proof.
  intros w1 w2 ev1 ev2 s1 s2 rules1 rules2 c1 c2 H1 H2 Hw O1 O2 R1 R2 A1 A2 L1 L2 L3 D S.
  destruct (main_exit _ _ _ H1) as [X1 _]. destruct (main_exit _ _ _ H2) as [X2 _].
  remember 5%Z as z1 eqn:E1 in X1. destruct X1; try discriminate.
  remember 0%Z as z2 eqn:E2 in X2. destruct X2; try discriminate.
  assert (s = s1) by (eapply options_are_det; eauto). subst s.
  assert (s0 = s2) by (eapply options_are_det; eauto). subst s0.
  assert (rules = rules1) by (eapply rules_loaded_det; eauto). subst rules.
  assert (rules0 = rules2) by (eapply rules_loaded_det; eauto). subst rules0.
  assert (c = c1) by (eapply analysed_det; eauto). subst c.
  assert (c0 = c2) by (eapply analysed_det; eauto). subst c0.
  match goal with Hn : ~ within_limits w1 s1 c1 |- _ => apply Hn end.
  match goal with Hl2 : within_limits w2 s2 c2 |- _ => rename Hl2 into W2 end.
  intros l Hl. destruct (shows_total (allowDuplicatedViolations s2) c2 QViolations) as [l2 Hl2].
  specialize (W2 l2 Hl2).
  pose proof (more_counts w1 w2 _ _ c1 c2 l l2 1 Hw D S Hl Hl2).
  pose proof (more_counts w1 w2 _ _ c1 c2 l l2 2 Hw D S Hl Hl2).
  pose proof (more_counts w1 w2 _ _ c1 c2 l l2 3 Hw D S Hl Hl2). lia.
Qed.

Example c25_case :
  snd (main (with_cmdline (exm_world 1 None 0) (with_limits exm_cl 2 0 0))) = Exit 5
  /\ snd (main (with_cmdline (exm_world 1 None 0) (with_limits exm_cl 3 0 0))) = Exit 0
  /\ snd (main (with_cmdline (exm_world 1 None 0) (with_limits exm_cl 9 9 9))) = Exit 0.
Proof. repeat split; vm_compute; reflexivity. Qed.

(** ** C26 *)
Theorem c26_all_loaded_or_first_failure : forall w dirs ps,
  asked w dirs ps ->
  match consumeArgRulesPath w dirs l_initial with
  | (ls, Val _) =>
      (forall p, In p ps -> w_rulelib w p <> None)
      /\ exists rules, registered_by w ps rules /\ l_rules ls = registry rules
  | (ls, Exc m) =>
      exists pre p post, ps = pre ++ p :: post /\ w_rulelib w p = None
        /\ (forall q, In q pre -> w_rulelib w q <> None)
        /\ m = $"cannot open dynamic library: " ++ p
        /\ exists rules, registered_by w pre rules /\ l_rules ls = registry rules
  | (_, UB) => False
  end.
Proof.
  intros w dirs ps A. apply asked_det in A as ->. rewrite consume_paths.
  destruct (load_paths w (asked_list w dirs) l_initial) as [ls [[]|m|]] eqn:E.
  - destruct (load_paths_val _ _ [] _ _ (linv_initial w) E) as [[I1 I2] Hall].
    split; auto. eexists. split; [exists (l_mapped ls); split; [exact I1|reflexivity]|exact I2].
  - destruct (load_paths_exc _ _ [] _ _ _ (linv_initial w) E) as (pre & p & post & H1 & H2 & H3 & H4 & [I1 I2]).
    exists pre, p, post. repeat (split; [assumption|]).
    eexists. split; [exists (l_mapped ls); split; [exact I1|reflexivity]|exact I2].
  - now apply load_paths_not_ub in E.
Qed.

(** Every list of directories asks for exactly one list of libraries. *)
Theorem c26_asked_is_a_function : forall w dirs,
  exists ps, asked w dirs ps /\ forall qs, asked w dirs qs -> qs = ps.
Proof.
  intros w dirs. exists (asked_list w dirs). split; [apply asked_list_ok|apply asked_det].
Qed.

Example c26_case :
  asked (exm_world 1 None 0) [$"/r"; $"/nope"; $"/r"]
    [$"/r/a.so"; $"/r/b.so"; $"/r/a.so"; $"/r/b.so"]
  /\ l_rules (fst (consumeArgRulesPath (exm_world 1 None 0) [$"/r"; $"/nope"; $"/r"] l_initial))
     = registry [1; 2; 3].
Proof. split; [exact (asked_list_ok (exm_world 1 None 0) [$"/r"; $"/nope"; $"/r"])|vm_compute; reflexivity]. Qed.

(** ** C27.  [ps] are the visible entries of the reporter directory. *)
Theorem c27_first_matching_reporter : forall w dir type es vs,
  w_list w dir = Some es -> sublist_where visible es vs ->
  let ps := map (fun n => dir ++ "/"%char :: n) vs in
  match loadReporter w dir type with
  | (opened, Val r) =>
      exists pre p post, ps = pre ++ p :: post /\ opened = pre ++ [p]
        /\ w_replib w p = Some (Some r) /\ rp_name r = type
        /\ (forall q, In q pre -> exists r', w_replib w q = Some (Some r') /\ rp_name r' <> type)
  | (opened, Exc m) =>
      (exists pre p post, ps = pre ++ p :: post /\ opened = pre /\ w_replib w p = None
        /\ m = $"cannot open dynamic library: " ++ p
        /\ (forall q, In q pre -> exists r', w_replib w q = Some (Some r') /\ rp_name r' <> type))
      \/ (opened = ps /\ m = $"cannot find dynamic library for report type: " ++ type
        /\ (forall q, In q ps -> exists r', w_replib w q = Some (Some r') /\ rp_name r' <> type))
  | (opened, UB) => exists p, In p ps /\ w_replib w p = Some None
  end.
Proof.
  intros w dir type es vs Hl Hv ps.
  assert (G : forall qs opened,
    match find_paths w type qs opened with
    | (o, Val (Some r)) => exists pre p post, qs = pre ++ p :: post /\ o = opened ++ pre ++ [p]
        /\ w_replib w p = Some (Some r) /\ rp_name r = type
        /\ (forall q, In q pre -> exists r', w_replib w q = Some (Some r') /\ rp_name r' <> type)
    | (o, Val None) => o = opened ++ qs
        /\ (forall q, In q qs -> exists r', w_replib w q = Some (Some r') /\ rp_name r' <> type)
    | (o, Exc m) => exists pre p post, qs = pre ++ p :: post /\ o = opened ++ pre /\ w_replib w p = None
        /\ m = $"cannot open dynamic library: " ++ p
        /\ (forall q, In q pre -> exists r', w_replib w q = Some (Some r') /\ rp_name r' <> type)
    | (o, UB) => exists p, In p qs /\ w_replib w p = Some None
    end).
  { induction qs as [|q qs IH]; intros opened; simpl.
    - rewrite app_nil_r. split; [auto|intros q []].
    - destruct (w_replib w q) as [[r|]|] eqn:E.
      + destruct (str_eqb (rp_name r) type) eqn:T.
        * apply str_eqb_eq in T. exists [], q, qs. repeat split; auto. intros x [].
        * apply str_eqb_neq in T. specialize (IH (opened ++ [q])).
          destruct (find_paths w type qs (opened ++ [q])) as [o [[r1|]|m|]].
          -- destruct IH as (pre & p & post & -> & -> & H1 & H2 & H3).
             exists (q :: pre), p, post. rewrite <- app_assoc. repeat split; auto.
             intros x [<-|Hx]; eauto.
          -- destruct IH as [-> H]. rewrite <- app_assoc. split; auto. intros x [<-|Hx]; eauto.
          -- destruct IH as (pre & p & post & -> & -> & H1 & H2 & H3).
             exists (q :: pre), p, post. rewrite <- app_assoc. repeat split; auto.
             intros x [<-|Hx]; eauto.
          -- destruct IH as (p & H1 & H2). exists p. simpl; auto.
      + exists q. simpl; auto.
      + exists [], q, qs. rewrite app_nil_r. repeat split; auto. intros x []. }
  specialize (G ps []). unfold loadReporter. rewrite Hl, find_reporter_paths.
  rewrite <- (sublist_where_det _ _ _ _ Hv (visible_of_spec es)).
  change (map (in_dir dir) vs) with ps. simpl in G.
  destruct (find_paths w type ps []) as [o [[r|]|m|]]; cbn [fst snd obind].
  - destruct G as (pre & p & post & H1 & H2 & H3). exists pre, p, post. tauto.
  - right. tauto.
  - left. destruct G as (pre & p & post & H1 & H2 & H3). exists pre, p, post. tauto.
  - exact G.
Qed.

Theorem c27_unreadable_directory : forall w dir type,
  w_list w dir = None ->
  loadReporter w dir type = ([], Exc ($"cannot find dynamic library for report type: " ++ type)).
Proof. intros w dir type H. unfold loadReporter. now rewrite H. Qed.

Example c27_case :
  fst (loadReporter (exm_world 1 None 0) $"/b/../lib/oclint/reporters" $"text")
  = [$"/b/../lib/oclint/reporters/x.so"; $"/b/../lib/oclint/reporters/t.so"]
  /\ (exists m, snd (loadReporter (exm_world 1 None 0) $"/b/../lib/oclint/reporters" $"pmd") = Exc m).
Proof. split; [|eexists]; vm_compute; reflexivity. Qed.

(** ** C28.  [trace w n ev] spells out all events of a run that exits with [n]. *)
Theorem c28_events_of_every_run : forall w ev n, main w = (ev, Exit n) -> trace w n ev.
Proof. intros w ev n H. apply (main_exit _ _ _ H). Qed.

(** After the analysis there is at most one report, and a complete one exactly on exit
    0, 5, 6. *)
Definition report_like (e : event) : bool :=
  match e with EOut _ => true | EFile _ _ => true | _ => false end.
Theorem c28_one_report_after_analysis : forall w ev n pre sel post,
  main w = (ev, Exit n) -> ev = pre ++ EAnalyze sel :: post ->
  (forall sel', ~ In (EAnalyze sel') pre) ->
  (forall e, In e pre -> forall p t, e <> EFile p t) /\
  (length (filter report_like post) <= 1) /\
  ((n = 0 \/ n = 5 \/ n = 6)%Z ->
   exists s r c text e, options_are w s /\ reporter_found w s r
     /\ w_driver w sel = (c, Val tt)
     /\ session (shows (allowDuplicatedViolations s) c) (rp_report r c) (Val text)
     /\ filter report_like post = [e] /\ report_event w s text e) /\
  (n = 3%Z -> filter report_like post = []).
Proof.
  intros w ev n pre sel post H E Hpre. destruct (main_exit _ _ _ H) as [_ T].
  assert (U : forall l sel0 rest, listing w l ++ EAnalyze sel0 :: rest = pre ++ EAnalyze sel :: post ->
     pre = listing w l /\ sel = sel0 /\ post = rest).
  { intros l sel0 rest Q. unfold listing in *. destruct (w_listRules w); simpl in Q.
    - destruct pre as [|x pre]; simpl in Q; [discriminate|]. inversion Q; subst.
      destruct pre as [|y pre]; simpl in *; [inversion H2; auto|]. inversion H2; subst.
      exfalso. apply (Hpre sel0). simpl; auto.
    - destruct pre as [|x pre]; simpl in Q; [inversion Q; auto|]. inversion Q; subst.
      exfalso. apply (Hpre sel0). simpl; auto. }
  assert (LF : forall l e, In e (listing w l) -> forall p t, e <> EFile p t).
  { intros l e He p t ->. unfold listing in He. destruct (w_listRules w); simpl in He;
      [|tauto]. destruct He as [He|[]]. discriminate. }
  assert (EF : forall s c n l, said_last w s c n l -> filter report_like l = []).
  { intros s c m l [[_ ->]|(_ & l' & _ & ->)]; reflexivity. }
  destruct T.
  - destruct pre; discriminate.
  - destruct pre as [|? [|? ?]]; discriminate.
  - apply U in E as (-> & -> & ->). split; [apply LF|]. simpl.
    split; [lia|]. split; [intros; lia|auto].
  - apply U in E as (-> & -> & ->). split; [apply LF|]. rewrite filter_app. simpl. rewrite app_nil_r.
    split; [|split; [intros; lia|intros; lia]].
    destruct H0 as [->|[p ->]]; simpl; lia.
  - apply U in E as (-> & -> & ->). split; [apply LF|]. cbn [filter].
    assert (R : report_like ev = true).
    { destruct H7 as [[_ ->]|(_ & p & _ & ->)]; reflexivity. }
    rewrite R, (EF _ _ _ _ H8). split; [simpl; lia|]. split; [|intros; lia].
    intros _. destruct H4 as (sel' & F & D). rewrite H5 in F. inversion F; subst sel'.
    exists s, r, c, text, ev. destruct H6. auto 10.
Qed.

Example c28_case : fst (main (exm_world 2 (Some $"o") 99)) = [EAnalyze [1; 2; 3]; EFile $"/w/o" $"vvv"].
Proof. vm_compute. reflexivity. Qed.

Print Assumptions c23_exit_code_table.
Print Assumptions c23_well_behaved_run_exits.
Print Assumptions c24_success_iff.
Print Assumptions c24_success_means_report_on_disk_refuted.
Print Assumptions c25_raising_limits_keeps_success.
Print Assumptions c25_exceeding_is_monotone.
Print Assumptions c26_all_loaded_or_first_failure.
Print Assumptions c27_first_matching_reporter.
Print Assumptions c28_one_report_after_analysis.
