(** * C127: the texts of violations, and well-formed reports of whole runs *)
From Verif Require Import Base BaseFacts ModelResults ModelConfig ModelFilter ModelOptions ModelMain ModelDriver ModelReporters
  ModelSource ModelAST ModelRules ModelRuleTable ModelProgram ModelVerbose SpecResults SpecConfig SpecFilter SpecMain SpecDriver SpecJSON SpecXML SpecReporters
  SpecAST SpecProgram SpecVerbose SpecMessages ProofMain ProofReporters ProofDriver ProofProgram ProofVerbose ProofMessages
  PropAST PropMain PropDriver PropReporters PropProgram PropVerbose.
From Coq Require Import Lia.
Local Arguments lit : simpl never.

(** Every violation of a completed run is by a selected rule, at a path of its unit, with a
    message spelt from harmless characters and the names of that unit. *)
Theorem c127_messages : forall i s rules c xs,
  driver_of i s rules = (c, Val tt) -> compiled i xs ->
  Forall2 (fun x vs => Forall (fun v => made_of (unit_quotable x) (v_message v) /\ place_path x (v_path v)
                                        /\ exists k, In k rules /\ v_rule v = Some k) vs) xs (c_collection c).
Proof.
  intros i s rules c xs H Hx. unfold driver_of in H.
  destruct (run _ _ _ _ _ _ _ _ _) as [c1 [st'|m|]] eqn:R; cbn [obind] in H; try discriminate. injection H as ->.
  apply run_inv in R as (frs & cwd' & all & Uc & Ur & K).
  assert (xs = flat_map goodb frs) as ->.
  { apply (compiled_det i); auto. exists frs, cwd'. split; auto. now apply good_units_iff. }
  assert (E : c_collection c = map (fun pr => recordable (concat pr)) all).
  { destruct (enableClangChecker s); [destruct K as (f2 & d2 & _ & ->); rewrite checker_collection|subst c]; reflexivity. }
  rewrite E. clear - Ur. induction Ur as [|x xs st row st1 all st2 U Us IH]; cbn [map]; constructor; auto.
  clear - U. apply Forall_forall. intros v I. unfold recordable in I. apply filter_In in I as [I _]. apply in_concat in I as (vs & I & Hv).
  revert vs I Hv. induction U as [x st|k ks x st vs0 st1 rest st2 T U IH]; intros vs; [intros []|]. intros [<-|I] Hv.
  - apply takeoff_sound in T. rewrite Forall_forall in T. destruct (T v Hv) as (A & B & C). repeat split; auto. exists k. split; auto. now left.
  - destruct (IH vs I Hv) as (A & B & k' & C & D). repeat split; auto. exists k'. split; auto. now right.
Qed.

Lemma names_harmless k : forallb harmlessb (ri_name (shipped_env k)) && forallb harmlessb (ri_category (shipped_env k)) = true.
Proof.
  assert (A : forall s, In s (sh_LongLine :: shipped_rules) -> forallb harmlessb (sh_name s) && forallb harmlessb (sh_category s) = true).
  { apply forallb_forall. vm_compute. reflexivity. }
  unfold shipped_env. cbv zeta. cbn [ri_name ri_category]. apply A.
  destruct (nth_in_or_default k shipped_rules sh_LongLine) as [I| ->]; [now right|now left].
Qed.
Lemma names_bracketless k : forallb (fun c => negb (ascii_eqb c "["%char)) (ri_name (shipped_env k)) && forallb (fun c => negb (ascii_eqb c "|"%char)) (ri_category (shipped_env k)) = true.
Proof.
  assert (A : forall s, In s (sh_LongLine :: shipped_rules) -> forallb (fun c => negb (ascii_eqb c "["%char)) (sh_name s) && forallb (fun c => negb (ascii_eqb c "|"%char)) (sh_category s) = true).
  { apply forallb_forall. vm_compute. reflexivity. }
  unfold shipped_env. cbv zeta. cbn [ri_name ri_category]. apply A.
  destruct (nth_in_or_default k shipped_rules sh_LongLine) as [I| ->]; [now right|now left].
Qed.
Lemma shows_from dup c q l v : shows dup c q l -> In v l -> In v (collected_list q c).
Proof. unfold shows. destruct dup; [now intros ->|]. intros (_ & H & _) I. now apply H. Qed.

Lemma diagnostics_unruled i s rules c : driver_of i s rules = (c, Val tt) ->
  Forall (fun v => v_rule v = None) (c_errors c ++ c_warnings c ++ c_bugs c).
Proof.
  unfold driver_of. destruct (run _ _ _ _ _ _ _ _ _) as [c1 [st'|m|]] eqn:R; cbn [obind]; try discriminate. intros H. injection H as ->.
  apply run_inv in R as (frs & cwd' & all & _ & _ & K).
  assert (G : forall p ds, Forall (fun v => v_rule v = None) (map dviol (filter p ds))).
  { intros p ds. apply Forall_forall. intros v I. apply in_map_iff in I as (d & <- & _). apply dviol_shown. }
  destruct (enableClangChecker s).
  - destruct K as (f2 & d2 & _ & ->). destruct (c36_checker_buckets (all_diagnostics f2) (after_analysis c_empty (all_diagnostics frs) all)) as (bugs & -> & F).
    cbn. rewrite !Forall_app. repeat split; auto. clear - F. induction F; constructor; auto. apply H.
  - subst c. cbn. rewrite !Forall_app. repeat split; auto.
Qed.

Definition allowed (P : ascii -> Prop) : Prop := forall c, harmless c -> P c.
Lemma made_in P names m : allowed P -> Forall (Forall P) names -> made_of names m -> Forall P m.
Proof.
  intros A F. apply Forall_impl. intros c [H|(n & I & H)]; auto. rewrite Forall_forall in F. specialize (F n I). rewrite Forall_forall in F. auto.
Qed.
Lemma harmless_in P m : allowed P -> forallb harmlessb m = true -> Forall P m.
Proof. intros A H. apply Forall_forall. intros c I. apply A, harmlessb_ok. rewrite forallb_forall in H. auto. Qed.
Definition entry_in (P Q : ascii -> Prop) (e : entry) : Prop :=
  Forall P (e_message e) /\ Forall Q (e_path e)
  /\ forall r, e_rule e = Some r -> forallb harmlessb (r_name r) && forallb harmlessb (r_category r) = true.
Lemma entry_texts P e : allowed P -> entry_in P P e -> Forall (Forall P) (texts_of e).
Proof.
  intros A (B & C & D). unfold texts_of. apply Forall_cons; auto. apply Forall_cons; auto. destruct (e_rule e) as [r|]; [|constructor].
  specialize (D r eq_refl). apply andb_prop in D as [D1 D2]. repeat apply Forall_cons; try apply Forall_nil; now apply harmless_in.
Qed.
Lemma run_view P Q w i s rules c xs V : allowed P -> options_are (program w i) s -> analysed (program w i) s rules c -> compiled i xs ->
  spelt_in P Q xs -> presents shipped_env (allowDuplicatedViolations s) c V ->
  ruled_view V /\ Forall (entry_in P Q) (vw_violations V)
  /\ (clang_in P Q (c_errors c) -> Forall (entry_in P Q) (vw_errors V))
  /\ (clang_in P Q (c_warnings c) -> Forall (entry_in P Q) (vw_warnings V))
  /\ (clang_in P Q (c_bugs c) -> Forall (entry_in P Q) (vw_bugs V)).
Proof.
  intros A O An Hx Sp (PV & PE & PW & PB & _). destruct (program_analysed w i s rules c O An) as (sel & _ & D).
  pose proof (c127_messages i s sel c xs D Hx) as F. pose proof (diagnostics_unruled i s sel c D) as U. rewrite !Forall_app in U. destruct U as (Ue & Uw & Ub).
  unfold ruled_view. destruct PV as (l & Sl & ->). destruct PE as (le & Se & ->). destruct PW as (lw & Sw & ->). destruct PB as (lb & Sb & ->).
  assert (G : forall v, In v l -> exists x k, In x xs /\ made_of (unit_quotable x) (v_message v) /\ place_path x (v_path v) /\ v_rule v = Some k).
  { intros v I. apply (shows_from _ _ _ _ _ Sl) in I. cbn [collected_list] in I. apply in_concat in I as (vs & Iv & I).
    clear - F Iv I. induction F as [|x us xs cs H F IH]; [destruct Iv|]. destruct Iv as [->|Iv].
    - rewrite Forall_forall in H. destruct (H v I) as (B & C & k & _ & D). exists x, k. repeat split; auto. now left.
    - destruct (IH Iv) as (x' & k & B & C). exists x', k. split; auto. now right. }
  assert (K : forall q l', shows (allowDuplicatedViolations s) c q l' -> Forall (fun v => v_rule v = None) (collected_list q c) ->
    clang_in P Q (collected_list q c) -> Forall (entry_in P Q) (map (entry_of shipped_env) l')).
  { intros q l' S' U' C'. apply Forall_forall. intros e I. apply in_map_iff in I as (v & <- & I). apply (shows_from _ _ _ _ _ S') in I.
    unfold clang_in in C'. rewrite Forall_forall in U', C'. destruct (C' v I) as [C1 C2]. split; [exact C1|]. split; [exact C2|].
    cbn [e_rule entry_of]. rewrite (U' v I). discriminate. }
  split; [|split; [|split; [|split]]].
  - apply Forall_forall. intros e I. apply in_map_iff in I as (v & <- & I). destruct (G v I) as (x & k & _ & _ & _ & R). cbn. rewrite R. discriminate.
  - apply Forall_forall. intros e I. apply in_map_iff in I as (v & <- & I). destruct (G v I) as (x & k & Ix & M & Pl & R).
    destruct (Sp x Ix) as [S1 S2]. split; [|split].
    + eapply made_in; eauto.
    + now apply S2.
    + cbn [e_rule entry_of]. rewrite R. intros r [= <-]. apply names_harmless.
  - intros C. apply (K QErrors); auto.
  - intros C. apply (K QWarnings); auto.
  - intros C. apply (K QBugs); auto.
Qed.
Lemma driver_compiled i s rules c : driver_of i s rules = (c, Val tt) -> exists xs, compiled i xs.
Proof.
  unfold driver_of. destruct (run _ _ _ _ _ _ _ _ _) as [c1 [st'|m|]] eqn:R; cbn [obind]; try discriminate. intros _.
  apply run_inv in R as (frs & cwd' & all & Uc & _). exists (flat_map goodb frs), frs, cwd'. split; auto. now apply good_units_iff.
Qed.
Lemma json_allowed : allowed json_char.
Proof. intros c [[A B] N]. split; [lia|]. split; intros ->; apply N; cbn; auto. Qed.
Lemma xml_allowed : allowed xml_char.
Proof. intros c [[A B] N]. split; [lia|]. repeat split; intros ->; apply N; cbn; auto 6. Qed.

Lemma visible_allowed : allowed visible_char.
Proof. intros c [[A B] _]. now left. Qed.
Lemma entries_texts P l : allowed P -> Forall (entry_in P P) l -> Forall (fun e => Forall (Forall P) (texts_of e)) l.
Proof. intros A. apply Forall_impl. intros e. now apply entry_texts. Qed.

(** No completed run has a violation without a rule, the one thing the reporters cannot digest (C95). *)
Theorem c127_every_violation_has_a_rule : forall w i s rules c V,
  options_are (program w i) s -> analysed (program w i) s rules c ->
  presents shipped_env (allowDuplicatedViolations s) c V -> ruled_view V.
Proof.
  intros w i s rules c V O An P. destruct (program_analysed w i s rules c O An) as (sel & _ & D).
  destruct (driver_compiled i s sel c D) as (xs & Hx).
  refine (proj1 (run_view (fun _ => True) (fun _ => True) w i s rules c xs V _ O An Hx _ P)); [intros ? _; exact I|].
  intros x _. split; [|intros p _]; apply Forall_forall; intros y _; try exact I. apply Forall_forall. intros; exact I.
Qed.
(** Sources and paths without control characters, quotation marks and backslashes: the JSON
    report of the run is a JSON document that says what there is to report. *)
Theorem c127_json_report : forall w i s rules c xs now text,
  options_are (program w i) s -> analysed (program w i) s rules c -> compiled i xs ->
  spelt_in json_char json_char xs -> clang_in json_char json_char (c_bugs c) ->
  reported (program w i) s (JSONReporter shipped_env now) c text ->
  exists V timestamp, presents shipped_env (allowDuplicatedViolations s) c V /\ wraps_to now timestamp
    /\ json_text (view_json timestamp V) text.
Proof.
  intros w i s rules c xs now text O An Hx Sp Cl [Se _]. destruct (presented shipped_env (allowDuplicatedViolations s) c) as (V & P).
  destruct (run_view json_char json_char w i s rules c xs V json_allowed O An Hx Sp P) as (R & F & _ & _ & B).
  destruct (c67_valid_json shipped_env now _ c V P R) as (text' & ts & E & W & J).
  { apply Forall_app. split; apply entries_texts; auto using json_allowed. }
  exists V, ts. split; auto. split; auto. apply E in Se. injection Se as ->. exact J.
Qed.
(** The same for the XML report, without quotation marks, ampersands and opening angle brackets, ... *)
Theorem c127_xml_report : forall w i s rules c xs m t text,
  options_are (program w i) s -> analysed (program w i) s rules c -> compiled i xs -> broken_down m t -> valid_moment m ->
  spelt_in xml_char xml_char xs -> clang_in xml_char xml_char (c_bugs c) ->
  reported (program w i) s (XMLReporter shipped_env (Some t)) c text ->
  exists V date, presents shipped_env (allowDuplicatedViolations s) c V /\ xml_text (view_xml date V) text.
Proof.
  intros w i s rules c xs m t text O An Hx Bd Vm Sp Cl [Se _]. destruct (presented shipped_env (allowDuplicatedViolations s) c) as (V & P).
  destruct (run_view xml_char xml_char w i s rules c xs V xml_allowed O An Hx Sp P) as (R & F & _ & _ & B).
  destruct (c68_xml_valid shipped_env m t _ c V Bd Vm P R) as (text' & ts & E & J).
  { apply Forall_app. split; apply entries_texts; auto using xml_allowed. }
  exists V, ts. split; auto. apply E in Se. injection Se as ->. exact J.
Qed.
(** ... and for the PMD report, where only the paths must do without them. *)
Theorem c127_pmd_report : forall w i s rules c xs text,
  options_are (program w i) s -> analysed (program w i) s rules c -> compiled i xs ->
  spelt_in visible_char xml_char xs -> clang_in visible_char xml_char (c_errors c ++ c_warnings c ++ c_bugs c) ->
  reported (program w i) s (PMDReporter shipped_env) c text ->
  exists V, presents shipped_env (allowDuplicatedViolations s) c V /\ xml_text (view_pmd V) text.
Proof.
  intros w i s rules c xs text O An Hx Sp Cl [Se _]. destruct (presented shipped_env (allowDuplicatedViolations s) c) as (V & P).
  destruct (run_view visible_char xml_char w i s rules c xs V visible_allowed O An Hx Sp P) as (R & F & E1 & W1 & B).
  unfold clang_in in Cl. rewrite !Forall_app in Cl. destruct Cl as (Ce & Cw & Cb).
  assert (K : forall r l, (forall e, In e l -> forall rf, r e = Some rf -> xml_plain (r_name rf) /\ xml_plain (r_category rf)) -> Forall (entry_in visible_char xml_char) l ->
    Forall (fun p => xml_plain (e_path (fst p)) /\ printable (e_message (fst p))
                   /\ (forall r, snd p = Some r -> xml_plain (r_name r) /\ xml_plain (r_category r))) (map (fun e => (e, r e)) l)).
  { intros r l H G. apply Forall_forall. intros p I. apply in_map_iff in I as (e & <- & I). cbn [fst snd].
    rewrite Forall_forall in G. destruct (G e I) as (A & A' & _). split; [exact A'|]. split; [exact A|]. apply H. exact I. }
  assert (L : forall m, forallb harmlessb m = true -> xml_plain m).
  { intros m Hm. apply (harmless_in xml_char m xml_allowed Hm). }
  destruct (c68_pmd_valid shipped_env (allowDuplicatedViolations s) c V P) as (text' & E & J).
  { unfold pmd_findings. rewrite !Forall_app. repeat split; apply K; auto.
    - intros e _ rf [= <-]. split; apply L; reflexivity.
    - intros e _ rf [= <-]. split; apply L; reflexivity.
    - intros e I rf Hr. rewrite Forall_forall in F. destruct (F e I) as (_ & _ & H). destruct (e_rule e) as [r0|]; [|discriminate].
      injection Hr as <-. specialize (H r0 eq_refl). apply andb_prop in H as [H1 H2]. split; apply L; assumption.
    - intros e _ rf [= <-]. split; apply L; reflexivity. }
  exists V. split; auto. apply E in Se. injection Se as ->. exact J.
Qed.
(** Two runs with the same Xcode report found the same things, unless names contain line feeds or paths colons. *)
Theorem c127_xcode_reads_back : forall w i s rules c xs V w' i' s' rules' c' xs' V' text,
  options_are (program w i) s -> analysed (program w i) s rules c -> compiled i xs -> spelt_in line_char pathname_char xs ->
  presents shipped_env (allowDuplicatedViolations s) c V -> reported (program w i) s (XcodeReporter shipped_env) c text ->
  options_are (program w' i') s' -> analysed (program w' i') s' rules' c' -> compiled i' xs' -> spelt_in line_char pathname_char xs' ->
  presents shipped_env (allowDuplicatedViolations s') c' V' -> reported (program w' i') s' (XcodeReporter shipped_env) c' text ->
  map place_and_rule (vw_violations V) = map place_and_rule (vw_violations V').
Proof.
  assert (A : allowed line_char).
  { intros c [[H _] _] ->. change (code NL) with 10 in H. lia. }
  assert (G : forall w i s rules c xs V, options_are (program w i) s -> analysed (program w i) s rules c -> compiled i xs -> spelt_in line_char pathname_char xs ->
    presents shipped_env (allowDuplicatedViolations s) c V -> ruled_view V /\ Forall readable (vw_violations V)).
  { intros w i s rules c xs V O An Hx Sp P.
    destruct (run_view line_char pathname_char w i s rules c xs V A O An Hx Sp P) as (R & F & _). split; auto.
    destruct P as ((l & _ & El) & _). rewrite El in *. apply Forall_forall. intros e I. rewrite Forall_forall in F. destruct (F e I) as (B & C & _).
    rewrite Forall_forall in B, C. split; [|split; [|split]].
    - intros H. destruct (C _ H) as [_ N]. now apply N.
    - intros H. destruct (C _ H) as [N _]. now apply N.
    - intros H. now apply (B NL H).
    - intros r Hr. apply in_map_iff in I as (v & <- & _). cbn [e_rule entry_of] in Hr. destruct (v_rule v) as [k|]; [|discriminate]. injection Hr as <-. cbn [r_name r_category].
      pose proof (names_bracketless k) as N. apply andb_prop in N as [N1 N2]. rewrite forallb_forall in N1, N2. split; intros H.
      + specialize (N1 _ H). vm_compute in N1. discriminate.
      + specialize (N2 _ H). vm_compute in N2. discriminate. }
  intros w i s rules c xs V w' i' s' rules' c' xs' V' text O An Hx Sp P [Re _] O' An' Hx' Sp' P' [Re' _].
  destruct (G w i s rules c xs V) as [R F]; auto. destruct (G w' i' s' rules' c' xs' V') as [R' F']; auto.
  eapply (c66_xcode_lossless shipped_env _ c V shipped_env _ c' V'); eauto.
Qed.
(** Standard output of a whole run with the JSON reporter. *)
Theorem c127_json_output : forall w i ev n s xs now out,
  main (program w i) = (ev, Exit n) -> (n = 0 \/ n = 5 \/ n = 6)%Z -> w_listRules w = false ->
  options_are (program w i) s -> o_value (argOutput s) = $"-" -> enableClangChecker s = false ->
  (forall r, reporter_found (program w i) s r -> r = JSONReporter shipped_env now) ->
  compiled i xs -> spelt_in json_char json_char xs -> stdout false i s ev out ->
  exists rules c V timestamp, rules_loaded (program w i) s rules /\ analysed (program w i) s rules c
    /\ presents shipped_env (allowDuplicatedViolations s) c V
    /\ wraps_to now timestamp /\ json_text (view_json timestamp V) out.
Proof.
  intros w i ev n s xs now out M N L O D Ch Rp Hx Sp S.
  destruct (c126_quiet_output_is_the_report w i ev n s out M N L O D S) as (rules & r & c & Ld & Fr & An & Re).
  apply Rp in Fr as ->.
  destruct (c127_json_report w i s rules c xs now out O An Hx Sp) as (V & ts & P & W & J); auto.
  - destruct (program_analysed w i s rules c O An) as (sel & _ & Dr). unfold driver_of in Dr.
    destruct (run _ _ _ _ _ _ _ _ _) as [c1 [st'|m|]] eqn:R; cbn [obind] in Dr; try discriminate. injection Dr as ->.
    apply run_inv in R as (frs & cwd' & all & _ & _ & K). rewrite Ch in K. subst c. constructor.
  - exists rules, c, V, ts. auto.
Qed.

(** ** Cases and counterexamples *)
(** One C++ file that calls a function named [name], annotated [annotations]. *)
Definition ex_caller (name : str) (annotations : list str) : tuctx :=
  {| cx_env := cx_env (ex_ctx $"a.c" 100 99); cx_lang := cx_lang ex_x;
     cx_tops := [({| t_id := 100; t_validLoc := true; t_inMainFile := true; t_kind := TFunction false |},
       nd 100 (FunctionDecl {| f_name := $"f"; f_method := None; f_isDefinition := true; f_bodyLines := 6 |} []
         (Some (nd 101 (CompoundStmt [nd 102 (CallExpr (Some (name, Decl annotations None)) (nd 103 NullStmt) [])])))))];
     cx_evaluate := fun _ => None; cx_lines := fun _ => 1%Z; cx_sameExpr := fun _ _ => false |}.
(** A run with the prohibited-call rule and the given reporter. *)
Definition ex_report_world (r : reporter) : world :=
  {| w_list := w_list (ex_world [19]); w_rulelib := w_rulelib (ex_world [19]);
     w_replib := fun _ => Some (Some r); w_read := fun _ => None; w_yaml := fun _ => cf_initial;
     w_env := w_env (ex_world [19]);
     w_cmdline := Some {| cl_output := None; cl_reportType := Some (rp_name r); cl_R := cl_R exm_cl; cl_rc := [];
        cl_rule := []; cl_disableRule := []; cl_maxP1 := Some 9%Z; cl_maxP2 := None; cl_maxP3 := None;
        cl_globalAnalysis := None; cl_clangChecker := None; cl_duplications := None |};
     w_listRules := false; w_canOpen := fun _ => true; w_accepts := fun _ => 0;
     w_rules := shipped_env; w_driver := fun _ => (c_empty, UB); w_hash := fun _ => 0%Z |}.
Definition ex_advice : str := $"oclint:enforce[prohibited method][fgets]".
Definition ex_quoted : str := $"oclint:enforce[prohibited method][""fgets""]".

(** The message quotes the callee and the annotation. *)
Example c127_case : exists c v, driver_of (ex_inputs (ex_caller $"gets" [ex_advice]) ex_y) (os_initial exm_cl) [19] = (c, Val tt)
  /\ c_collection c = [[v]; []] /\ v_message v = $"calling prohibited function gets instead use fgets"
  /\ compiled (ex_inputs (ex_caller $"gets" [ex_advice]) ex_y) [ex_caller $"gets" [ex_advice]; ex_y]
  /\ unit_quotable (ex_caller $"gets" [ex_advice]) = [$"gets"; ex_advice].
Proof. do 2 eexists. split; [vm_compute; reflexivity|]. split; [reflexivity|]. split; [vm_compute; reflexivity|]. split; [apply ex_compiled|reflexivity]. Qed.
Lemma ex_spelt P : Forall P $"a.c" -> Forall P $"b.c" -> Forall P $"gets" -> Forall P ex_advice -> Forall P $"i" -> Forall P $"j" -> spelt_in P P [ex_caller $"gets" [ex_advice]; ex_y].
Proof.
  intros A B C D I J x [<-|[<-|[]]]; split.
  - change (unit_quotable (ex_caller $"gets" [ex_advice])) with [$"gets"; ex_advice]. auto.
  - intros p [->|(k & ->)]; assumption.
  - change (unit_quotable ex_y) with [$"i"; $"j"]. auto.
  - intros p [->|(k & ->)]; assumption.
Qed.
(** The hypotheses of the JSON theorem hold of the whole run of this file. *)
Example c127_json_case : exists ev s text,
  let w := ex_report_world (JSONReporter shipped_env 0) in let i := ex_inputs (ex_caller $"gets" [ex_advice]) ex_y in
  main (program w i) = (ev, Exit 0) /\ options_are (program w i) s /\ o_value (argOutput s) = $"-" /\ enableClangChecker s = false
  /\ (forall r, reporter_found (program w i) s r -> r = JSONReporter shipped_env 0)
  /\ compiled i [ex_caller $"gets" [ex_advice]; ex_y] /\ spelt_in json_char json_char [ex_caller $"gets" [ex_advice]; ex_y]
  /\ spelt_in xml_char xml_char [ex_caller $"gets" [ex_advice]; ex_y] /\ stdout false i s ev text.
Proof.
  eexists. eexists. eexists. cbv zeta. split; [vm_compute; reflexivity|].
  split; [eexists; split; [reflexivity|vm_compute; reflexivity]|]. split; [vm_compute; reflexivity|]. split; [reflexivity|].
  split; [intros r (es & vs & _ & _ & H); induction H as [p ps r H _|p ps r' r _ _ _ IH]; [injection H as <-; reflexivity|exact IH]|].
  split; [apply ex_compiled|].
  split; [apply ex_spelt; apply (harmless_in json_char _ json_allowed); reflexivity|].
  split; [apply ex_spelt; apply (harmless_in xml_char _ xml_allowed); reflexivity|].
  unfold stdout. cbn [outs_text]. apply interleaved_all_left.
Qed.
(** Finding: an annotation with a quotation mark in it, and the JSON report of the run is no JSON document; ... *)
Theorem c127_json_refuted : exists w i ev text,
  main (program w i) = (ev, Exit 0) /\ In (EOut text) ev /\ forall j, ~ json_text j text.
Proof.
  exists (ex_report_world (JSONReporter shipped_env 0)), (ex_inputs (ex_caller $"gets" [ex_quoted]) ex_y). do 2 eexists.
  split; [vm_compute; reflexivity|]. split; [right; left; reflexivity|]. apply not_json. intros f0. vm_compute. reflexivity.
Qed.
(** ... an overloaded operator that must not be called, and the XML report is no XML document. *)
Theorem c127_xml_refuted : exists w i ev text,
  main (program w i) = (ev, Exit 0) /\ In (EOut text) ev /\ forall e, ~ xml_text e text.
Proof.
  exists (ex_report_world (XMLReporter shipped_env (Some ex_tm))), (ex_inputs (ex_caller $"operator<" [ex_advice]) ex_y). do 2 eexists.
  split; [vm_compute; reflexivity|]. split; [right; left; reflexivity|]. apply not_xml. intros f0. vm_compute. reflexivity.
Qed.

Print Assumptions c127_messages.
Print Assumptions c127_every_violation_has_a_rule.
Print Assumptions c127_json_report.
Print Assumptions c127_xml_report.
Print Assumptions c127_pmd_report.
Print Assumptions c127_xcode_reads_back.
Print Assumptions c127_json_output.
Print Assumptions c127_json_refuted.
Print Assumptions c127_xml_refuted.
