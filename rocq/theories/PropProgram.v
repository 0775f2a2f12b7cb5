(** * The program as a whole: C112-C115 *)
From Verif Require Import Base BaseFacts ModelResults ModelConfig ModelFilter ModelOptions ModelMain ModelDriver
  ModelSource ModelAST ModelRules ModelRulesBasic ModelRulesConvention ModelRulesNullCheck
  ModelRulesRedundant ModelRulesVars ModelRulesObjC ModelRuleTable ModelProgram
  SpecResults SpecFilter SpecOptions SpecMain SpecAST SpecSource SpecRules SpecRulesBasic SpecRulesRedundant SpecRulesVars SpecDriver SpecProgram
  ProofFilter ProofMain ProofSource ProofAST ProofRules ProofRulesRedundant ProofRulesVars ProofDriver ProofProgram
  PropFilter PropDriver PropSource PropAST PropRules PropRulesBasic PropRulesVars PropMain PropRuleTable.
From Coq Require Import Lia Permutation.
Local Arguments lit : simpl never.

Lemma units_compile_det {X} (tc : toolchain X) k cwd cmds frs1 cwd1 : units_compile tc k cwd cmds frs1 cwd1 ->
  forall frs2 cwd2, units_compile tc k cwd cmds frs2 cwd2 -> frs1 = frs2 /\ cwd1 = cwd2.
Proof.
  induction 1 as [cwd|cwd fc cwd1 fr cmds frs cwd2 H H' IH]; intros frs2 cwd3 K; inversion K; subst; auto.
  apply (unit_compiles_iff _ _ _ _ _ _ c_empty) in H.
  match goal with H2 : unit_compiles _ _ _ _ _ _ |- _ => apply (unit_compiles_iff _ _ _ _ _ _ c_empty) in H2; rewrite H in H2; inversion H2; subst end.
  match goal with H3 : units_compile _ _ _ cmds _ _ |- _ => destruct (IH _ _ H3) as [-> ->] end. auto.
Qed.
Lemma compiled_det i xs ys : compiled i xs -> compiled i ys -> xs = ys.
Proof.
  intros (f1 & c1 & U1 & G1) (f2 & c2 & U2 & G2). destruct (units_compile_det _ _ _ _ _ _ U1 _ _ U2) as [-> _].
  apply good_units_iff in G1, G2. congruence.
Qed.
Lemma checker_collection ds c : c_collection (fold_left (HandleDiagnostic true) ds c) = c_collection c.
Proof.
  destruct (c36_checker_buckets ds c) as (bugs & -> & _). reflexivity.
Qed.
Lemma recordable_concat l : recordable (concat l) = concat (map recordable l).
Proof. unfold recordable. induction l as [|a l IH]; cbn [concat map]; auto. now rewrite filter_app, IH. Qed.

(** ** C112: every rule works as if it were alone *)
(** In a completed run the set of each unit is, rule by rule, what the rule records when it is
    run alone on that unit alone in a fresh process. *)
Theorem c112_each_rule_on_its_own : forall i s rules c xs,
  driver_of i s rules = (c, Val tt) -> compiled i xs -> NoDup rules -> separate xs ->
  exists table, each_alone (os_cfg s) rules xs table /\ c_collection c = map (@concat violation) table.
Proof.
  intros i s rules c xs H Hx Hd Hs. unfold driver_of in H.
  destruct (run _ _ _ _ _ _ _ _ _) as [c1 [st'|m|]] eqn:R; cbn [obind] in H; try discriminate. injection H as ->.
  apply run_inv in R as (frs & cwd' & all & Uc & Ur & K).
  assert (xs = flat_map goodb frs) as ->.
  { apply (compiled_det i); auto. exists frs, cwd'. split; auto. now apply good_units_iff. }
  assert (E : c_collection c = map (fun pr => recordable (concat pr)) all).
  { destruct (enableClangChecker s); [destruct K as (f2 & d2 & _ & ->); rewrite checker_collection|subst c]; reflexivity. }
  exists (map (map recordable) all). split.
  - unfold each_alone. pose proof (proj1 (units_alone_initial (os_cfg s) rules _ Hd Hs) _ _ Ur) as F.
    clear - F. induction F as [|x row xs all Hrow F IH]; cbn [map]; constructor; auto.
    clear - Hrow. induction Hrow as [|k vs rules row [s0 E] H IH]; cbn [map]; constructor; auto.
    apply alone_iff. eauto.
  - rewrite E, map_map. apply map_ext. intros pr. apply recordable_concat.
Qed.
(** And it completes if every rule completes alone on every unit. *)
Theorem c112_completes : forall i s rules xs,
  compiled i xs -> NoDup rules -> separate xs -> enableClangChecker s = false ->
  (forall x k, In x xs -> In k rules -> exists vs, alone (os_cfg s) k x vs) ->
  exists c, driver_of i s rules = (c, Val tt).
Proof.
  intros i s rules xs (frs & cwd & Uc & G) Hd Hs Hk Ha.
  assert (F : exists all, Forall2 (fun x row => Forall2 (fun k vs => exists st, takeoff (os_cfg s) k x r_initial = Val (vs, st)) rules row) xs all).
  { clear - Ha. induction xs as [|x xs IH]; [exists []; constructor|].
    destruct IH as [all Hall]; [intros; apply Ha; cbn; auto|].
    assert (R : exists row, Forall2 (fun k vs => exists st, takeoff (os_cfg s) k x r_initial = Val (vs, st)) rules row).
    { assert (Hx : forall k, In k rules -> exists vs, alone (os_cfg s) k x vs) by (intros; apply Ha; cbn; auto).
      clear - Hx. induction rules as [|k rules IH]; [exists []; constructor|].
      destruct IH as [row Hrow]; [intros; apply Hx; cbn; auto|].
      destruct (Hx k (or_introl eq_refl)) as [vs Hvs]. apply alone_iff in Hvs as (v0 & st & E & _).
      exists (v0 :: row). constructor; eauto. }
    destruct R as [row Hrow]. exists (row :: all). now constructor. }
  destruct F as [all F].
  destruct (proj2 (units_alone_initial (os_cfg s) rules xs Hd Hs) all F) as [st' Ur].
  destruct (c34_rules_run_on_good_units _ _ (in_tools i) (takeoff (os_cfg s)) rules (enableGlobalAnalysis s) (in_sources i)
              c_empty (in_cwd i) r_initial frs cwd xs all st' Uc G Ur) as (c' & _ & _ & R & _).
  exists c'. unfold driver_of. rewrite Hk. rewrite R. reflexivity.
Qed.

(** ** C113: what a rule records *)
Lemma roots_examined x s decls : well_formed x -> examined x s decls -> roots_of x s = decls.
Proof.
  intros Hn (sel & Hs & ->). unfold roots_of.
  assert (F : forall t root, In (t, root) (cx_tops x) -> find (fun t0 => t_id (fst t0) =? t_id t) (cx_tops x) = Some (t, root)).
  { unfold well_formed in Hn. clear - Hn. intros t root I. induction (cx_tops x) as [|a l IH]; [destruct I|]. cbn [map] in Hn. inversion Hn; subst.
    cbn [find]. destruct I as [->|I].
    - cbn [fst]. now rewrite Nat.eqb_refl.
    - destruct (t_id (fst a) =? t_id t) eqn:E; [|now apply IH].
      apply Nat.eqb_eq in E. exfalso. apply H1. rewrite E.
      apply (in_map (fun t => t_id (fst t))) in I. exact I. }
  assert (I : forall y, In y sel -> In y (cx_tops x)) by (intros y; now apply (sublist_where_in _ _ _ _ Hs)).
  destruct (visited_sel _ _ _ _ _ Hs) as [->|[-> ->]]; [|reflexivity].
  unfold inspects. cbn [app flat_map]. rewrite flat_map_app. cbn [flat_map app]. rewrite app_nil_r.
  clear Hs. induction sel as [|[t root] sel IH]; [reflexivity|]. cbn [map flat_map fst snd].
  rewrite (F t root) by (apply I; now left). cbn [app]. f_equal. apply IH. intros y Hy. apply I. now right.
Qed.
Lemma examined_exists x s : exists! decls, examined x s decls.
Proof.
  destruct (c53_selection_exists (cx_lang x) (sh_supportedLanguages s) (sh_supportedCUDA s) (cx_tops x)) as (sel & H & Hu).
  exists (map snd sel). split; [exists sel; auto|]. intros d (sel' & H' & ->). now rewrite (Hu sel' H').
Qed.
Lemma collect_roots {X} (f : node -> list X) roots : flat_map (collect f) roots = flat_map f (flat_map nodes roots).
Proof. induction roots as [|r roots IH]; cbn [flat_map]; auto. rewrite flat_map_app, IH. f_equal. apply collect_nodes. Qed.
Lemma each_root_iff rule roots rs : each_root rule roots = Val rs <-> exists rss, Forall2 (fun d r => rule d = Val r) roots rss /\ rs = concat rss.
Proof.
  revert rs. induction roots as [|r roots IH]; intros rs; cbn [each_root].
  - split.
    + intros [= <-]. exists []. split; constructor.
    + intros (rss & F & ->). inversion F; subst. reflexivity.
  - split.
    + destruct (rule r) as [a|m|] eqn:E; cbn [obind]; try discriminate.
      destruct (each_root rule roots) as [b|m|]; cbn [obind]; try discriminate. intros [= <-].
      destruct (proj1 (IH b) eq_refl) as (rss & F & ->). exists (a :: rss). split; [constructor; auto|reflexivity].
    + intros (rss & F & ->). inversion F; subst.
      match goal with E : rule r = _ |- _ => rewrite E end. cbn [obind].
      match goal with F : Forall2 _ roots ?l |- _ => rewrite (proj2 (IH (concat l)) (ex_intro _ l (conj F eq_refl))) end. reflexivity.
Qed.
Lemma set_up_iff x s : set_up x s = true <-> prepared (cx_lang x) (sh_supportedLanguages s) (sh_supportedCUDA s).
Proof.
  unfold set_up, prepared. destruct (lo_cuda (cx_lang x)) eqn:C.
  - destruct (c46_cuda_units (cx_lang x) (sh_supportedLanguages s) (sh_supportedCUDA s) (map fst (cx_tops x)) C) as (sel & _ & ->). cbn. tauto.
  - destruct (c45_language_gating (cx_lang x) (sh_supportedLanguages s) (sh_supportedCUDA s) (map fst (cx_tops x)) C) as [P N]. split.
    + intros H. right. split; auto. unfold supports_host in *.
      assert (D : (exists l, language_of (cx_lang x) l /\ supports (sh_supportedLanguages s) l)
        \/ ~ exists l, language_of (cx_lang x) l /\ supports (sh_supportedLanguages s) l).
      { rewrite <- lang_iff. destruct (isLanguageSupported _ _); auto. }
      destruct (N.testbit (sh_supportedCUDA s) 0) eqn:T, D as [D|D]; auto; rewrite N in H by (intros [X Y]; try tauto; discriminate); discriminate H.
    + intros [[=]|(_ & H & L)]. destruct P as (sel & _ & ->); auto.
Qed.
Lemma calls_finds c x s b roots rs : b <> BLines -> (set_up x s = false -> roots = []) ->
  (exists stack, calls b c x [] (set_up x s) roots = Val (stack, rs)) <-> finds c x s b roots rs.
Proof.
  intros Hb Hr. destruct b; cbn [calls]; try congruence.
  - split.
    + intros [st [= <- <-]]. unfold reports. rewrite collect_roots. constructor.
    + intros F. inversion F; subst. eexists. unfold reports. now rewrite collect_roots.
  - split.
    + intros [st H]. destruct (each_root _ roots) as [l|m|] eqn:E; cbn [obind] in H; try discriminate. injection H as <- <-.
      apply each_root_iff in E as (rss & F & ->). now constructor.
    + intros F. inversion F; subst. eexists. rewrite (proj2 (each_root_iff _ _ _) (ex_intro _ rss (conj H0 eq_refl))). reflexivity.
  - pose proof (set_up_iff x s) as I. destruct (set_up x s).
    + split.
      * intros [st H]. destruct (rule c x roots) as [l|m|] eqn:E; cbn [obind] in H; try discriminate. injection H as <- <-. apply fi_setup; tauto.
      * intros F. inversion F; subst; [|tauto]. match goal with E : rule _ _ _ = _ |- _ => rewrite E end. cbn [obind]. eauto.
    + assert (N : ~ prepared (cx_lang x) (sh_supportedLanguages s) (sh_supportedCUDA s)) by (intros X; apply I in X; discriminate).
      split.
      * intros [st [= <- <-]]. rewrite Hr by auto. now apply fi_not_setup.
      * intros F. inversion F; subst; [tauto|]. eauto.
  - split; [intros [st [= <- <-]]; constructor|intros F; inversion F; subst; eauto].
  - split.
    + intros [st [= <- <-]]. rewrite collect_roots. constructor.
    + intros F. inversion F; subst. eexists. now rewrite collect_roots.
  - split.
    + intros [st H]. apply fi_stack. unfold ShortVariableNameRule. now rewrite H.
    + intros F. inversion F; subst. unfold ShortVariableNameRule in *. destruct (ShortVariableName_run c [] roots) as [[st r]|m|]; try discriminate.
      match goal with E : obind _ _ = _ |- _ => injection E as -> end. eauto.
Qed.
Lemma not_set_up x s : set_up x s = false -> roots_of x s = [].
Proof.
  unfold set_up, roots_of. destruct (lo_cuda (cx_lang x)) eqn:C; unfold applyVisitor; rewrite C; [discriminate|].
  unfold applyC. destruct (_ || _); [reflexivity|discriminate].
Qed.
Lemma recordable_kept e attr k rs kept : sublist_where (recorded e attr) rs kept ->
  recordable (map (violation_of e k) kept) = map (violation_of e k) kept.
Proof.
  intros H. unfold recordable.
  induction H as [|r l s [_ P] H IH|r l s _ H IH]; auto. cbn [map filter]. rewrite IH.
  unfold violation_of at 1. cbn [v_path]. destruct (l_path _); [congruence|reflexivity].
Qed.
Lemma takeoff_initial c k x s b : nth_error shipped_behaviours k = Some (s, b) -> b <> BLines ->
  takeoff c k x r_initial =
    obind (calls b c x [] (set_up x s) (roots_of x s)) (fun r =>
        let '(vs, sc) := fold_left (add_report (cx_env x) k (sh_attributeName s)) (snd r) ([], sc_fresh) in
        Val (vs, {| r_cache := sc; r_stack := fst r |})).
Proof. intros E Hb. unfold takeoff. rewrite E. destruct b; try reflexivity. congruence. Qed.

(** A rule records its findings on the declarations it inspects, in order and once each,
    except the hidden ones and those without a file -- and nothing else. *)
Theorem c113_findings_exactly : forall c k x s b vs, well_formed x ->
  nth_error shipped_behaviours k = Some (s, b) -> b <> BLines ->
  (alone c k x vs <->
   exists decls rs kept, examined x s decls /\ finds c x s b decls rs
     /\ sublist_where (recorded (cx_env x) (sh_attributeName s)) rs kept
     /\ vs = map (violation_of (cx_env x) k) kept).
Proof.
  intros c k x s b vs Hw Hk Hb. rewrite alone_iff, (takeoff_initial c k x s b Hk Hb).
  assert (Hc : same_comments (e_unit (cx_env x)) []) by (intros q []).
  split.
  - intros (v0 & st & H & ->). destruct (calls b c x [] (set_up x s) (roots_of x s)) as [[stk rs]|m|] eqn:E; cbn [obind] in H; try discriminate.
    cbn [fst snd] in H. destruct (add_reports (cx_env x) k (sh_attributeName s) rs [] [] Hc) as (h & kept & _ & S & F).
    cbn [ask_all] in F. unfold violationset in *. rewrite F in H. injection H as <- <-.
    destruct (examined_exists x s) as (decls & D & _).
    pose proof (not_set_up x s) as Ns. rewrite (roots_examined x s decls Hw D) in E, Ns.
    exists decls, rs, kept. split; auto. split; [apply calls_finds; eauto|]. split; auto. cbn [app]. eapply recordable_kept; eauto.
  - intros (decls & rs & kept & D & F & S & ->). pose proof (not_set_up x s) as Ns. rewrite (roots_examined x s decls Hw D) in *.
    apply calls_finds in F as [stk F]; auto. rewrite F. cbn [obind fst snd].
    destruct (add_reports (cx_env x) k (sh_attributeName s) rs [] [] Hc) as (h & kept' & _ & S' & F').
    cbn [ask_all] in F'. unfold violationset in *. rewrite F'. rewrite (sublist_where_det _ _ _ _ S' S).
    do 2 eexists. split; [reflexivity|]. cbn [app]. symmetry. eapply recordable_kept; eauto.
Qed.
(** The long-line rule: the lines above the limit, in order, except those a comment or an
    annotated declaration hides. *)
Theorem c113_long_lines : forall c c' T k x s vs ls,
  nth_error shipped_behaviours k = Some (s, BLines) ->
  intForKey c $"LONG_LINE" 100 = Val (T, c') -> u_path (main_unit x) <> [] ->
  lines_of (u_content (main_unit x)) ls ->
  (alone c k x vs <->
   exists sel, sublist_where (fun l => (T < Z.of_nat (length (snd l)))%Z /\ ~ comment_on (main_unit x) (fst l)
                    /\ ~ in_suppressed_decl (main_unit x) $"long line" (fst l)) (numbered 1 ls) sel
     /\ vs = map (fun l => {| v_rule := Some k; v_path := u_path (main_unit x);
                              v_startLine := fst l; v_startColumn := 1;
                              v_endLine := fst l; v_endColumn := Z.of_nat (length (snd l));
                              v_message := $"Line with " ++ show_Z (Z.of_nat (length (snd l)))
                                           ++ $" characters exceeds limit of " ++ show_Z T |}) sel).
Proof.
  intros c c' T k x s vs ls Hk HT Hp Hl. rewrite alone_iff. unfold takeoff. rewrite Hk.
  destruct (c39_long_lines_exactly c c' T (main_unit x) k [] [] ls HT Hp) as (sel & sc & S & E); auto; [intros q []|].
  cbn [ask_all] in E. cbn [r_cache r_initial]. fold (main_unit x). rewrite E. cbn [obind fst app].
  assert (R : forall l : list (Z * str), recordable (map (fun l => {| v_rule := Some k; v_path := u_path (main_unit x);
                              v_startLine := fst l; v_startColumn := 1;
                              v_endLine := fst l; v_endColumn := Z.of_nat (length (snd l));
                              v_message := $"Line with " ++ show_Z (Z.of_nat (length (snd l)))
                                           ++ $" characters exceeds limit of " ++ show_Z T |}) l)
    = map (fun l => {| v_rule := Some k; v_path := u_path (main_unit x);
                              v_startLine := fst l; v_startColumn := 1;
                              v_endLine := fst l; v_endColumn := Z.of_nat (length (snd l));
                              v_message := $"Line with " ++ show_Z (Z.of_nat (length (snd l)))
                                           ++ $" characters exceeds limit of " ++ show_Z T |}) l).
  { unfold recordable. induction l as [|a l IH]; auto. cbn [map filter v_path].
    destruct (u_path (main_unit x)); [congruence|]. cbn [is_nil negb]. now rewrite IH. }
  split.
  - intros (v0 & st & [= <- _] & ->). exists sel. split; auto.
  - intros (sel' & S' & ->). rewrite (sublist_where_det _ _ _ _ S' S). do 2 eexists. split; [reflexivity|]. now rewrite R.
Qed.
Lemma sizekind_eq (a b : sizekind) : {a = b} + {a <> b}.
Proof. decide equality. Qed.
(** The nine size rules. *)
Definition size_shipped (k : sizekind) : shipped :=
  match k with
  | SCyclomatic => sh_CyclomaticComplexity | SNcss => sh_NcssMethodCount | SNPath => sh_NPathComplexity
  | SDepth => sh_NestedBlockDepth | SMethodLines => sh_LongMethod | SClassLines => sh_LongClass
  | SFields => sh_TooManyFields | SMethods => sh_TooManyMethods | SParameters => sh_TooManyParameters
  end.
Definition size_index (k : sizekind) : nat :=
  match k with
  | SCyclomatic => 60 | SNcss => 65 | SNPath => 64 | SDepth => 66 | SMethodLines => 63
  | SClassLines => 61 | SFields => 67 | SMethods => 68 | SParameters => 69
  end.
Definition size_behaviour (kd : sizekind) : behaviour :=
  match kd with
  | SClassLines => BSetUp (fun c _ => LongClassRule c) | SFields => BSetUp (fun c _ => TooManyFieldsRule c)
  | SMethods => BSetUp (fun c _ => TooManyMethodsRule c) | SParameters => BSetUp (fun c _ => TooManyParametersRule c)
  | _ => BChecked (fun c _ => size_rule kd c)
  end.
Lemma size_row kd : nth_error shipped_behaviours (size_index kd) = Some (size_shipped kd, size_behaviour kd).
Proof. destruct kd; reflexivity. Qed.
Lemma size_finds kd c x s decls rs : finds c x s (size_behaviour kd) decls rs ->
  exists rss, Forall2 (fun d r => size_rule kd c d = Val r) decls rss /\ rs = concat rss.
Proof.
  destruct kd; intros F; inversion F; subst; try (eexists; split; [eassumption|reflexivity]); try (exists []; split; [constructor|reflexivity]);
    match goal with E : _ = Val _ |- _ => exact (setUp_each _ _ _ _ _ _ E) end.
Qed.
Theorem c113_size_rules : forall kd c c' T x vs, well_formed x ->
  intForKey c (size_key kd) (size_default kd) = Val (T, c') -> (kd = SParameters -> 0 <= T)%Z ->
  alone c (size_index kd) x vs ->
  exists decls rss kept, examined x (size_shipped kd) decls /\ Forall2 (strictly_above kd T) decls rss
    /\ sublist_where (recorded (cx_env x) (sh_attributeName (size_shipped kd))) (concat rss) kept
    /\ vs = map (violation_of (cx_env x) (size_index kd)) kept.
Proof.
  intros kd c c' T x vs Hw HT Hpar H.
  apply (c113_findings_exactly c (size_index kd) x _ _ vs Hw (size_row kd)) in H as (decls & rs & kept & D & F & S & ->); [|destruct kd; discriminate].
  apply size_finds in F as (rss & F & ->). exists decls, rss, kept. repeat split; auto.
  clear - F HT Hpar. induction F as [|d rs decls rss H F IH]; constructor; auto.
  destruct (sizekind_eq kd SParameters) as [->|N].
  - eapply c52_parameters_above_limit; eauto.
  - eapply c52_strictly_above_limit; eauto.
Qed.

(** ** C114: a clean bill of health *)
Lemma long_line_rule c u k lines : forall vs sc vs' sc', Forall (fun v => v_rule v = Some k) vs ->
  LongLine_loop c u k lines vs sc = Val (vs', sc') -> Forall (fun v => v_rule v = Some k) vs'.
Proof.
  induction lines as [|[n l] lines IH]; intros vs sc vs' sc' F; cbn [LongLine_loop].
  - intros [= <- _]. exact F.
  - unfold LongLine_eachLine. destruct (intForKey c $"LONG_LINE" 100) as [[T c']|m|]; cbn [obind fst]; try discriminate.
    destruct (T <? Z.of_nat (length l))%Z; cbn [obind fst snd]; [|now apply IH].
    unfold addViolation_line. destruct (shouldSuppress_line n u _ sc) as [[|] sc1]; cbn [fst snd]; [now apply IH|].
    apply IH. unfold carrier_addViolation. destruct (negb _); auto.
    apply Forall_app. split; auto.
Qed.
(** What a rule records alone bears its name. *)
Lemma alone_rule c k x vs : alone c k x vs -> Forall (fun v => v_rule v = Some k) vs.
Proof.
  intros H. apply alone_iff in H as (v0 & st & H & ->).
  assert (F : Forall (fun v => v_rule v = Some k) v0).
  { unfold takeoff in H. destruct (nth_error shipped_behaviours k) as [[s b]|] eqn:E; [|discriminate].
    assert (B : b = BLines \/ b <> BLines) by (destruct b; auto; right; discriminate).
    destruct B as [->|B].
    - destruct (LongLine_apply _ _ k [] _) as [[v1 s1]|m|] eqn:L; cbn [obind fst snd] in H; try discriminate. injection H as <- _.
      eapply long_line_rule; [|exact L]. constructor.
    - assert (H' : takeoff c k x r_initial = Val (v0, st)) by (unfold takeoff; rewrite E; exact H).
      rewrite (takeoff_initial c k x s b E B) in H'. destruct (calls b c x [] (set_up x s) (roots_of x s)) as [[stk rs]|m|]; cbn [obind fst snd] in H'; try discriminate.
      destruct (add_reports (cx_env x) k (sh_attributeName s) rs [] [] (fun q Hq => match Hq with end)) as (h & kept & _ & _ & A).
      cbn [ask_all app] in A. unfold violationset in *. rewrite A in H'. injection H' as <- _.
      apply Forall_forall. intros v Hv. apply in_map_iff in Hv as (r & <- & _). reflexivity. }
  unfold recordable. apply Forall_forall. intros v Hv. apply filter_In in Hv as [Hv _]. rewrite Forall_forall in F. auto.
Qed.
Lemma program_analysed w i s rules c : options_are (program w i) s -> analysed (program w i) s rules c ->
  exists sel, filteredRules shipped_env (os_filter s) (registry rules) = Val sel /\ driver_of i s sel = (c, Val tt).
Proof.
  intros (cl & Hcl & Hp) (sel & Hs & Hd). exists sel. split; [exact Hs|].
  cbn in Hcl, Hp, Hd. rewrite Hcl, Hp in Hd. exact Hd.
Qed.
Lemma table_in c rules xs table v : each_alone c rules xs table ->
  (In v (concat (map (@concat violation) table)) <->
   exists x k vs, In x xs /\ In k rules /\ alone c k x vs /\ In v vs).
Proof.
  unfold each_alone. intros F. split.
  - intros I. apply in_concat in I as (l & Hl & Hv). apply in_map_iff in Hl as (row & <- & Hrow).
    apply in_concat in Hv as (vs & Hvs & Hv).
    assert (X : exists x, In x xs /\ Forall2 (fun k vs => alone c k x vs) rules row).
    { clear - F Hrow. induction F as [|x r xs t H F IH]; [destruct Hrow|].
      destruct Hrow as [<-|Hrow]; [exists x; split; cbn; auto|]. destruct (IH Hrow) as (y & Hy & G). exists y; split; cbn; auto. }
    destruct X as (x & Hx & G).
    assert (Y : exists k, In k rules /\ alone c k x vs).
    { clear - G Hvs. induction G as [|k r ks t H F IH]; [destruct Hvs|].
      destruct Hvs as [<-|Hvs]; [exists k; split; cbn; auto|]. destruct (IH Hvs) as (y & Hy & G). exists y; split; cbn; auto. }
    destruct Y as (k & Hk & A). exists x, k, vs. auto.
  - intros (x & k & vs & Hx & Hk & A & Hv).
    assert (X : exists row, In row table /\ Forall2 (fun k vs => alone c k x vs) rules row).
    { clear - F Hx. induction F as [|y r xs t H F IH]; [destruct Hx|].
      destruct Hx as [<-|Hx]; [exists r; split; cbn; auto|]. destruct (IH Hx) as (z & Hz & G). exists z; split; cbn; auto. }
    destruct X as (row & Hrow & G).
    assert (Y : exists vs', In vs' row /\ alone c k x vs').
    { clear - G Hk. induction G as [|y r xs t H F IH]; [destruct Hk|].
      destruct Hk as [<-|Hk]; [exists r; split; cbn; auto|]. destruct (IH Hk) as (z & Hz & G'). exists z; split; cbn; auto. }
    destruct Y as (vs' & Hvs' & A').
    assert (vs' = vs) as -> by (apply alone_iff in A as (? & ? & E & ->), A' as (? & ? & E' & ->); congruence).
    apply in_concat. exists (concat row). split; [apply in_map; auto|]. apply in_concat. eauto.
Qed.
Lemma count_zero w s c p : (forall l, shows (allowDuplicatedViolations s) c QViolations l -> (count_priority w p l <= 0)%Z) <->
  forall v a, In v (concat (c_collection c)) -> v_rule v = Some a -> ri_priority (w_rules w a) <> p.
Proof.
  assert (Sh : forall l, shows (allowDuplicatedViolations s) c QViolations l -> forall v, In v l <-> In v (concat (c_collection c))).
  { intros l Hl v. unfold shows in Hl. destruct (allowDuplicatedViolations s); [subst; reflexivity|]. now apply Hl. }
  split.
  - intros H v a Hv Ha Hp. destruct (shows_total (allowDuplicatedViolations s) c QViolations) as [l Hl].
    specialize (H l Hl). unfold count_priority in H.
    assert (I : In v (filter (has_priorityb (w_rules w) p) l)).
    { apply filter_In. split; [now apply (Sh l Hl)|]. unfold has_priorityb. rewrite Ha. now apply Z.eqb_eq. }
    destruct (filter _ l); [destruct I|cbn in H; lia].
  - intros H l Hl. unfold count_priority.
    destruct (filter (has_priorityb (w_rules w) p) l) as [|v f] eqn:E; [cbn; lia|].
    assert (I : In v (filter (has_priorityb (w_rules w) p) l)) by (rewrite E; now left).
    apply filter_In in I as [I B]. unfold has_priorityb in B. destruct (v_rule v) as [a|] eqn:Ea; [|discriminate].
    exfalso. apply (H v a); auto; [now apply (Sh l Hl)|now apply Z.eqb_eq].
Qed.

(** With all limits zero, a run that gets as far as its verdict succeeds exactly when every
    selected rule of priority 1, 2 or 3 is silent on every compiled unit. *)
Theorem c114_success_iff_silent : forall w i ev n s rules sel xs,
  main (program w i) = (ev, Exit n) -> (n = 0 \/ n = 5)%Z ->
  options_are (program w i) s -> maxP1 s = 0%Z -> maxP2 s = 0%Z -> maxP3 s = 0%Z ->
  rules_loaded (program w i) s rules -> NoDup rules ->
  filteredRules shipped_env (os_filter s) (registry rules) = Val sel ->
  compiled i xs -> separate xs ->
  (n = 0%Z <-> forall x k, In x xs -> In k sel -> (1 <= ri_priority (shipped_env k) <= 3)%Z -> alone (os_cfg s) k x []).
Proof.
  intros w i ev n s rules sel xs H Hn O M1 M2 M3 L Hd Hsel Hx Hs.
  assert (Hds : NoDup sel).
  { rewrite filteredRules_eq in Hsel. injection Hsel as <-. now apply NoDup_filter. }
  destruct (main_exit _ _ _ H) as [X _].
  assert (C : exists c, analysed (program w i) s rules c /\ (n = 0%Z <-> within_limits (program w i) s c)).
  { destruct Hn as [->| ->]; [remember 0%Z as z eqn:E in X|remember 5%Z as z eqn:E in X]; destruct X; try discriminate;
      assert (s0 = s) by (eapply options_are_det; eauto); subst s0;
      assert (rules0 = rules) by (eapply rules_loaded_det; eauto); subst rules0; exists c; split; auto.
    - split; auto.
    - split; [discriminate|contradiction]. }
  destruct C as (c & A & ->).
  destruct (program_analysed _ _ _ _ _ O A) as (sel' & Hsel' & D). rewrite Hsel in Hsel'. injection Hsel' as <-.
  destruct (c112_each_rule_on_its_own i s sel c xs D Hx Hds Hs) as (table & T & Ec).
  unfold within_limits. rewrite M1, M2, M3.
  transitivity (forall p, (1 <= p <= 3)%Z -> forall l, shows (allowDuplicatedViolations s) c QViolations l -> (count_priority (program w i) p l <= 0)%Z).
  { split.
    - intros Q p Hp l Hl. destruct (Q l Hl) as (Q1 & Q2 & Q3). assert (p = 1 \/ p = 2 \/ p = 3)%Z as [->|[->| ->]] by lia; auto.
    - intros Q l Hl. repeat split; apply Q; auto; lia. }
  split.
  - intros Q x k Hx' Hk Hp. specialize (Q _ Hp). rewrite count_zero in Q. rewrite Ec in Q.
    assert (R : exists vs, alone (os_cfg s) k x vs).
    { clear - T Hx' Hk. unfold each_alone in T. induction T as [|y row xs t F T IH]; [destruct Hx'|].
      destruct Hx' as [->|Hx']; [|auto]. clear - F Hk. induction F as [|k' vs ks row A F IH]; [destruct Hk|].
      destruct Hk as [->|Hk]; eauto. }
    destruct R as [[|v vs] R]; auto. exfalso.
    pose proof (alone_rule _ _ _ _ R) as F. inversion F; subst.
    apply (Q v k); auto. apply (table_in _ _ _ _ _ T). exists x, k, (v :: vs). cbn. auto.
  - intros Q p Hp. rewrite count_zero. intros v a Hv Ha Ep. rewrite Ec in Hv.
    apply (table_in _ _ _ _ _ T) in Hv as (x & k & vs & Hx' & Hk & A' & Hv).
    pose proof (alone_rule _ _ _ _ A') as F. rewrite Forall_forall in F. pose proof (F v Hv) as E. rewrite Ha in E. injection E as ->.
    cbn [w_rules program] in Ep.
    assert (Z : alone (os_cfg s) k x []) by (apply Q; auto; lia).
    apply alone_iff in A' as (? & ? & E & ->), Z as (? & ? & E' & Z). rewrite E in E'. injection E' as <- <-. rewrite <- Z in Hv. destruct Hv.
Qed.

(** A rule that completes is silent exactly when it has no open finding. *)
Theorem c114_silent_iff_no_open_finding : forall c k x s b, well_formed x ->
  nth_error shipped_behaviours k = Some (s, b) -> b <> BLines -> (exists vs, alone c k x vs) ->
  (alone c k x [] <-> forall r, ~ open_finding c x k r).
Proof.
  intros c k x s b Hw Hk Hb [vs Hvs].
  destruct (proj1 (c113_findings_exactly c k x s b vs Hw Hk Hb) Hvs) as (decls & rs & kept & D & F & S & ->).
  assert (Det : forall decls' rs', examined x s decls' -> finds c x s b decls' rs' -> rs' = rs).
  { intros d' rs' D' F'. destruct (examined_exists x s) as (d0 & _ & Un). rewrite <- (Un decls D) in F. rewrite <- (Un d' D') in F'.
    destruct (examined_exists x s) as (d1 & D1 & Un1). pose proof (not_set_up x s) as Ns. rewrite (roots_examined x s d1 Hw D1) in Ns.
    rewrite (Un1 _ D), <- (Un _ D) in Ns.
    apply calls_finds in F as [? F], F' as [? F']; auto. rewrite F in F'. congruence. }
  split.
  - intros H r (s' & b' & d' & rs' & Hk' & D' & F' & Hr & Rc). rewrite Hk in Hk'. injection Hk' as <- <-.
    rewrite (Det _ _ D' F') in Hr.
    apply (c113_findings_exactly c k x s b [] Hw Hk Hb) in H as (d1 & rs1 & k1 & D1 & F1 & S1 & E1).
    rewrite (Det _ _ D1 F1) in S1. symmetry in E1. apply map_eq_nil in E1. subst k1.
    clear - S1 Hr Rc. remember [] as nl eqn:E in S1. induction S1; try discriminate; [destruct Hr|]. destruct Hr as [->|Hr]; auto.
  - intros N. replace (@nil violation) with (map (violation_of (cx_env x) k) kept); [exact Hvs|].
    assert (kept = []) as ->; [|reflexivity].
    assert (N' : forall r, In r rs -> ~ recorded (cx_env x) (sh_attributeName s) r).
    { intros r Hr Rc. apply (N r). exists s, b, decls, rs. auto. }
    clear - S N'. induction S as [|r l t P S IH|r l t P S IH]; auto.
    + exfalso. apply (N' r); auto. now left.
    + apply IH. intros r' Hr'. apply N'. now right.
Qed.

(** Together: success with zero limits means that nothing is left open. *)
Lemma success_silent w i ev s rules sel xs :
  main (program w i) = (ev, Exit 0) -> options_are (program w i) s ->
  maxP1 s = 0%Z -> maxP2 s = 0%Z -> maxP3 s = 0%Z ->
  rules_loaded (program w i) s rules -> NoDup rules ->
  filteredRules shipped_env (os_filter s) (registry rules) = Val sel -> compiled i xs -> separate xs ->
  forall x k, In x xs -> In k sel -> (1 <= ri_priority (shipped_env k) <= 3)%Z -> alone (os_cfg s) k x [].
Proof.
  intros H O M1 M2 M3 L Hd Hsel Hx Hs.
  exact (proj1 (c114_success_iff_silent w i ev 0 s rules sel xs H (or_introl eq_refl) O M1 M2 M3 L Hd Hsel Hx Hs) eq_refl).
Qed.
Theorem c114_success_leaves_nothing_open : forall w i ev s rules sel xs,
  main (program w i) = (ev, Exit 0) -> options_are (program w i) s ->
  maxP1 s = 0%Z -> maxP2 s = 0%Z -> maxP3 s = 0%Z ->
  rules_loaded (program w i) s rules -> NoDup rules ->
  filteredRules shipped_env (os_filter s) (registry rules) = Val sel -> compiled i xs -> separate xs ->
  forall x k r, In x xs -> well_formed x -> In k sel -> (1 <= ri_priority (shipped_env k) <= 3)%Z ->
  ~ open_finding (os_cfg s) x k r.
Proof.
  intros w i ev s rules sel xs H O M1 M2 M3 L Hd Hsel Hx Hs x k r Ix Hw Ik Hp Of.
  pose proof (success_silent w i ev s rules sel xs H O M1 M2 M3 L Hd Hsel Hx Hs x k Ix Ik Hp) as A.
  destruct Of as (s0 & b & decls & rs & Hk & D & F & Hr & Rc).
  assert (B : b <> BLines) by (intros ->; inversion F).
  refine (proj1 (c114_silent_iff_no_open_finding (os_cfg s) k x s0 b Hw Hk B (ex_intro _ _ A)) A r _).
  exists s0, b, decls, rs. auto.
Qed.
(** For the size rules: no unhidden function, block or class measures more than the limit. *)
Theorem c114_success_bounds_sizes : forall w i ev s rules sel xs,
  main (program w i) = (ev, Exit 0) -> options_are (program w i) s ->
  maxP1 s = 0%Z -> maxP2 s = 0%Z -> maxP3 s = 0%Z ->
  rules_loaded (program w i) s rules -> NoDup rules ->
  filteredRules shipped_env (os_filter s) (registry rules) = Val sel -> compiled i xs -> separate xs ->
  forall x kd T c' decls d n m a b, In x xs -> well_formed x -> In (size_index kd) sel ->
  intForKey (os_cfg s) (size_key kd) (size_default kd) = Val (T, c') -> (kd = SParameters -> 0 <= T)%Z ->
  examined x (size_shipped kd) decls -> In d decls -> below d n -> measured kd n m a b ->
  (m <= T)%Z \/ ~ recorded (cx_env x) (sh_attributeName (size_shipped kd)) (Report n (a ++ show_Z m ++ b ++ $" exceeds limit of " ++ show_Z T)).
Proof.
  intros w i ev s rules sel xs H O M1 M2 M3 L Hd Hsel Hx Hs x kd T c' decls d n m a b Ix Hw Ik HT Hpar D Id Hb Hm.
  destruct (Z_le_gt_dec m T) as [Hle|Hgt]; auto. right. intros Rc.
  assert (Hp : (1 <= ri_priority (shipped_env (size_index kd)) <= 3)%Z) by (destruct kd; vm_compute; split; discriminate).
  pose proof (success_silent w i ev s rules sel xs H O M1 M2 M3 L Hd Hsel Hx Hs x (size_index kd) Ix Ik Hp) as A.
  destruct (c113_size_rules kd (os_cfg s) c' T x [] Hw HT Hpar A) as (decls' & rss & kept & D' & F & S & E).
  destruct (examined_exists x (size_shipped kd)) as (d0 & _ & Un). rewrite <- (Un _ D) in Id. rewrite <- (Un _ D') in F. clear D D' Un decls decls'.
  symmetry in E. apply map_eq_nil in E. subst kept.
  assert (I : In (Report n (a ++ show_Z m ++ b ++ $" exceeds limit of " ++ show_Z T)) (concat rss)).
  { clear - F Id Hb Hm Hgt. induction F as [|d' rs ds rss (sl & S & G) F IH]; [destruct Id|]. cbn [concat]. apply in_or_app.
    destruct Id as [->|Id]; [left|right; auto].
    assert (In n sl).
    { clear - S Hb Hm Hgt. apply in_nodes in Hb. induction S as [|y l t P S IH|y l t P S IH]; [destruct Hb| |].
      - destruct Hb as [->|Hb]; [left; auto|right; auto].
      - destruct Hb as [->|Hb]; [|auto]. exfalso. apply P. exists m, a, b. split; auto. lia. }
    clear S IH. induction G as [|y r l t (m' & a' & b' & Hm' & ->) G IH]; [destruct H|].
    destruct H as [->|H]; [left|right; auto].
    destruct (c52_measure_unique _ _ _ _ _ _ _ _ Hm Hm') as (-> & -> & ->). reflexivity. }
  clear - S I Rc. remember [] as nl eqn:E in S. induction S; try discriminate; [destruct I|]. destruct I as [->|I]; auto.
Qed.
(** For a rule that reports the nodes of a pattern: no unhidden node of that pattern. *)
Theorem c114_success_excludes_pattern : forall w i ev s rules sel xs,
  main (program w i) = (ev, Exit 0) -> options_are (program w i) s ->
  maxP1 s = 0%Z -> maxP2 s = 0%Z -> maxP3 s = 0%Z ->
  rules_loaded (program w i) s rules -> NoDup rules ->
  filteredRules shipped_env (os_filter s) (registry rules) = Val sel -> compiled i xs -> separate xs ->
  forall x k sh visit pat rep decls d n, In x xs -> well_formed x -> In k sel ->
  (1 <= ri_priority (shipped_env k) <= 3)%Z -> nth_error shipped_behaviours k = Some (sh, BVisit visit) ->
  (forall root, reports_exactly pat rep root (reports (visit x) root)) ->
  examined x sh decls -> In d decls -> below d n -> pat n ->
  ~ recorded (cx_env x) (sh_attributeName sh) (rep n).
Proof.
  intros w i ev s rules sel xs H O M1 M2 M3 L Hd Hsel Hx Hs x k sh visit pat rep decls d n Ix Hw Ik Hp Hk Re D Id Hb Pn Rc.
  apply (c114_success_leaves_nothing_open w i ev s rules sel xs H O M1 M2 M3 L Hd Hsel Hx Hs x k (rep n) Ix Hw Ik Hp).
  exists sh, (BVisit visit), decls, (flat_map (visit x) (flat_map nodes decls)). repeat split; auto; try apply Rc; [constructor|].
  destruct (Re d) as (sl & S & E). rewrite reports_nodes in E.
  apply in_flat_map. assert (I : In (rep n) (flat_map (visit x) (nodes d))).
  { rewrite E. apply in_map. clear - S Hb Pn. apply in_nodes in Hb. induction S as [|y l t P S IH|y l t P S IH]; [destruct Hb| |].
    - destruct Hb as [->|Hb]; [left; auto|right; auto].
    - destruct Hb as [->|Hb]; [contradiction|auto]. }
  apply in_flat_map in I as (m & Hm & I). exists m. split; auto. apply in_flat_map. eauto.
Qed.
(** For instance, no goto. *)
Corollary c114_success_means_no_goto : forall w i ev s rules sel xs,
  main (program w i) = (ev, Exit 0) -> options_are (program w i) s ->
  maxP1 s = 0%Z -> maxP2 s = 0%Z -> maxP3 s = 0%Z ->
  rules_loaded (program w i) s rules -> NoDup rules ->
  filteredRules shipped_env (os_filter s) (registry rules) = Val sel -> compiled i xs -> separate xs ->
  forall x k decls d n l, In x xs -> well_formed x -> In k sel -> nth_error shipped_rules k = Some sh_GotoStatement ->
  examined x sh_GotoStatement decls -> In d decls -> below d n -> n_shape n = GotoStmt l ->
  ~ recorded (cx_env x) $"goto statement" (Report n []).
Proof.
  intros w i ev s rules sel xs H O M1 M2 M3 L Hd Hsel Hx Hs x k decls d n l Ix Hw Ik Hk D Id Hb Hn.
  assert (k = 10) as ->.
  { apply (NoDup_nth_error (map sh_identifier shipped_rules)).
    - exact identifiers_nodup.
    - rewrite map_length. apply nth_error_Some. congruence.
    - rewrite !nth_error_map, Hk. vm_compute. reflexivity. }
  change $"goto statement" with (sh_attributeName sh_GotoStatement).
  eapply (c114_success_excludes_pattern w i ev s rules sel xs H O M1 M2 M3 L Hd Hsel Hx Hs x 10 sh_GotoStatement (fun _ => Goto_visit)
    (fun n => exists l, n_shape n = GotoStmt l) (fun n => Report n [])); eauto.
  - vm_compute. split; discriminate.
  - apply c79_goto_exactly.
Qed.
(** And no unhidden line above the limit. *)
Theorem c114_success_bounds_lines : forall w i ev s rules sel xs,
  main (program w i) = (ev, Exit 0) -> options_are (program w i) s ->
  maxP1 s = 0%Z -> maxP2 s = 0%Z -> maxP3 s = 0%Z ->
  rules_loaded (program w i) s rules -> NoDup rules ->
  filteredRules shipped_env (os_filter s) (registry rules) = Val sel -> compiled i xs -> separate xs ->
  forall x k line, In x xs -> u_path (main_unit x) <> [] -> In k sel -> nth_error shipped_behaviours k = Some (sh_LongLine, BLines) ->
  (1 <= ri_priority (shipped_env k) <= 3)%Z -> ~ open_line (os_cfg s) x line.
Proof.
  intros w i ev s rules sel xs H O M1 M2 M3 L Hd Hsel Hx Hs x k line Ix Pth Ik Hk Hp (T & c' & ls & HT & Hl & I & Len & Nc & Ns).
  pose proof (success_silent w i ev s rules sel xs H O M1 M2 M3 L Hd Hsel Hx Hs x k Ix Ik Hp) as A.
  apply (c113_long_lines _ c' T k x _ [] ls Hk HT Pth Hl) in A as (sl & S & E).
  symmetry in E. apply map_eq_nil in E. subst sl.
  remember [] as nl eqn:E in S. induction S; try discriminate; [destruct I|]. destruct I as [->|I]; auto.
Qed.

(** ** C115: nothing else matters *)
(** The model's rows are the shipped rules, in the order of the table. *)
Theorem c115_rows_are_the_shipped_rules : map fst shipped_behaviours = shipped_rules.
Proof. reflexivity. Qed.

Lemma table_nth c rules table a : forall x b, each_alone c rules (a ++ x :: b) table ->
  exists row, nth_error table (length a) = Some row /\ Forall2 (fun k vs => alone c k x vs) rules row.
Proof.
  revert table. unfold each_alone. induction a as [|y a IH]; intros table x b F; cbn [app length] in *; inversion F; subst.
  - eexists. split; [reflexivity|auto].
  - cbn [nth_error]. eapply IH. eauto.
Qed.
Lemma row_of_rule c x k rules row : NoDup rules -> In k rules -> Forall2 (fun k vs => alone c k x vs) rules row ->
  exists vs, alone c k x vs /\ of_rule k (concat row) vs.
Proof.
  assert (N : forall l k' rest, Forall (fun v => v_rule v = Some k') l -> k' <> k -> forall vs, of_rule k rest vs -> of_rule k (l ++ rest) vs).
  { unfold of_rule. intros l k' rest F Ne vs H. induction F as [|v l E F IH]; cbn [app]; auto. constructor; auto. congruence. }
  assert (Y : forall l rest, Forall (fun v => v_rule v = Some k) l -> forall vs, of_rule k rest vs -> of_rule k (l ++ rest) (l ++ vs)).
  { unfold of_rule. intros l rest F vs H. induction F as [|v l E F IH]; cbn [app]; auto. now constructor. }
  assert (Z : forall rules row, ~ In k rules -> Forall2 (fun k vs => alone c k x vs) rules row -> of_rule k (concat row) []).
  { intros rs rw Ni F. induction F as [|k' vs rs rw A F IH]; cbn [concat]; [constructor|].
    eapply N; [eapply alone_rule; eauto| |apply IH]; cbn in Ni; tauto. }
  intros Hd Hk F. induction F as [|k' vs rules row A F IH]; [destruct Hk|]. inversion Hd; subst. cbn [concat].
  destruct Hk as [->|Hk].
  - exists vs. split; auto. rewrite <- (app_nil_r vs) at 2. apply Y; [eapply alone_rule; eauto|]. eapply Z; eauto.
  - destruct (IH ltac:(assumption) Hk) as (ws & A' & O'). exists ws. split; auto.
    eapply N; [eapply alone_rule; eauto|congruence|auto].
Qed.
(** Two runs that agree on the configuration record the same violations of a rule on a unit,
    whatever other rules run and whatever other files are given. *)
Theorem c115_other_rules_and_files_do_not_matter : forall i1 s1 rules1 c1 a1 b1 i2 s2 rules2 c2 a2 b2 x k,
  driver_of i1 s1 rules1 = (c1, Val tt) -> compiled i1 (a1 ++ x :: b1) -> separate (a1 ++ x :: b1) -> NoDup rules1 ->
  driver_of i2 s2 rules2 = (c2, Val tt) -> compiled i2 (a2 ++ x :: b2) -> separate (a2 ++ x :: b2) -> NoDup rules2 ->
  os_cfg s1 = os_cfg s2 -> In k rules1 -> In k rules2 ->
  exists set1 set2 vs, nth_error (c_collection c1) (length a1) = Some set1
    /\ nth_error (c_collection c2) (length a2) = Some set2
    /\ of_rule k set1 vs /\ of_rule k set2 vs.
Proof.
  intros i1 s1 rules1 c1 a1 b1 i2 s2 rules2 c2 a2 b2 x k D1 C1 S1 N1 D2 C2 S2 N2 E K1 K2.
  destruct (c112_each_rule_on_its_own _ _ _ _ _ D1 C1 N1 S1) as (t1 & T1 & E1).
  destruct (c112_each_rule_on_its_own _ _ _ _ _ D2 C2 N2 S2) as (t2 & T2 & E2).
  destruct (table_nth _ _ _ _ _ _ T1) as (r1 & R1 & F1). destruct (table_nth _ _ _ _ _ _ T2) as (r2 & R2 & F2).
  destruct (row_of_rule _ _ _ _ _ N1 K1 F1) as (v1 & A1 & O1). destruct (row_of_rule _ _ _ _ _ N2 K2 F2) as (v2 & A2 & O2).
  rewrite <- E in A2. assert (v2 = v1) as -> by (apply alone_iff in A1 as (? & ? & P & ->), A2 as (? & ? & Q & ->); congruence).
  exists (concat r1), (concat r2), v1. rewrite E1, E2, !nth_error_map, R1, R2. auto.
Qed.
(** Giving the files in another order permutes the sets. *)
Lemma separate_perm xs ys : Permutation xs ys -> separate xs -> separate ys.
Proof.
  assert (Sym : forall x y, agree x y /\ disjoint_memory x y -> agree y x /\ disjoint_memory y x).
  { intros x y [A D]. split; [|intros j Hj K; now apply (D j)]. intros E. destruct (A (eq_sym E)) as [-> ->]. auto. }
  induction 1 as [|x l l' P IH|x y l|l l' l'' P IH P' IH']; intros S; auto.
  - inversion S; subst. constructor; auto. intros y Hy. match goal with H : forall y, In y l -> _ |- _ => apply H end.
    eapply Permutation_in; [apply Permutation_sym; exact P|exact Hy].
  - inversion S as [|? ? Hy Sx]; subst. inversion Sx as [|? ? Hx Sl]; subst. constructor.
    + intros z [<-|Hz]; [apply Sym, Hy; now left|now apply Hx].
    + constructor; auto. intros z Hz. apply Hy. now right.
Qed.
Theorem c115_order_of_files : forall i1 s1 c1 xs1 i2 s2 c2 xs2 rules,
  driver_of i1 s1 rules = (c1, Val tt) -> compiled i1 xs1 -> separate xs1 -> NoDup rules ->
  driver_of i2 s2 rules = (c2, Val tt) -> compiled i2 xs2 -> os_cfg s1 = os_cfg s2 ->
  Permutation xs1 xs2 -> Permutation (c_collection c1) (c_collection c2).
Proof.
  intros i1 s1 c1 xs1 i2 s2 c2 xs2 rules D1 C1 S1 N D2 C2 E P.
  destruct (c112_each_rule_on_its_own _ _ _ _ _ D1 C1 N S1) as (t1 & T1 & ->).
  destruct (c112_each_rule_on_its_own _ _ _ _ _ D2 C2 N (separate_perm _ _ P S1)) as (t2 & T2 & ->).
  apply Permutation_map. rewrite <- E in T2. clear - P T1 T2. unfold each_alone in *.
  assert (Det : forall x r1 r2, Forall2 (fun k vs => alone (os_cfg s1) k x vs) rules r1 -> Forall2 (fun k vs => alone (os_cfg s1) k x vs) rules r2 -> r1 = r2).
  { clear. intros x r1 r2 F1. revert r2. induction F1 as [|k vs ks r A F IH]; intros r2 F2; inversion F2 as [|? w ? r' B F']; subst; auto.
    rewrite (IH _ F'). f_equal. apply alone_iff in A as (? & ? & ? & ->), B as (? & ? & ? & ->); congruence. }
  revert t1 t2 T1 T2. induction P as [|x l l' P IH|x y l|l l' l'' P IH P' IH']; intros t1 t2 T1 T2.
  - inversion T1; inversion T2; subst. constructor.
  - inversion T1; inversion T2; subst.
    match goal with A : Forall2 _ rules ?r, B : Forall2 _ rules ?r' |- Permutation (?r :: _) (?r' :: _) => rewrite (Det _ _ _ A B) end.
    constructor. auto.
  - inversion T1 as [|? r1 ? q1 F1 G1]; subst. inversion G1 as [|? r2 ? q2 F2 G2]; subst.
    inversion T2 as [|? r3 ? q3 F3 G3]; subst. inversion G3 as [|? r4 ? q4 F4 G4]; subst.
    rewrite (Det _ _ _ F3 F2), (Det _ _ _ F4 F1).
    assert (q4 = q2) as ->.
    { clear - G2 G4 Det. revert q4 G4. induction G2; intros q4 G4; inversion G4; subst; auto. f_equal; eauto. }
    constructor.
  - assert (X : exists t, Forall2 (fun x row => Forall2 (fun k vs => alone (os_cfg s1) k x vs) rules row) l' t).
    { clear - P T1. revert t1 T1. induction P as [|x l l' P IH|x y l|l l' l'' P IH P' IH']; intros t1 T1.
      - eauto.
      - inversion T1 as [|? r1 ? q1 F1 G1]; subst. destruct (IH _ G1) as [t Ht]. exists (r1 :: t). now constructor.
      - inversion T1 as [|? r1 ? q1 F1 G1]; subst. inversion G1 as [|? r2 ? q2 F2 G2]; subst. exists (r2 :: r1 :: q2). now repeat constructor.
      - destruct (IH _ T1) as [t Ht]. destruct (IH' _ Ht) as [t' Ht']. eauto. }
    destruct X as [t Ht]. apply (Permutation_trans (l' := t)); auto.
Qed.

(** ** A concrete program: two files, each with [for (int i; ;) ; goto L; int j;] *)
Definition ex_tree (o : nat) : node :=
  nd o (FunctionDecl {| f_name := $"f"; f_method := None; f_isDefinition := true; f_bodyLines := 60 |} []
    (Some (nd (o + 1) (CompoundStmt
      [nd (o + 2) (ForStmt (Some (nd (o + 3) (DeclStmt [ex_decl (o + 4) $"i"]))) [] None None (nd (o + 5) NullStmt));
       nd (o + 6) (GotoStmt $"L");
       nd (o + 7) (DeclStmt [ex_decl (o + 8) $"j"])])))).
Definition ex_ctx (path : str) (o : nat) (commented : Z) : tuctx :=
  {| cx_env := {| e_unit := {| u_path := path; u_content := $"short" ++ [NL] ++ $"text";
                               u_comments := Some [Some {| cm_text := $"//!OCLINT"; cm_line := commented |}]; u_top := [] |};
                  e_decl := fun _ => Decl [] None; e_parents := fun _ => NoParent;
                  e_loc := fun i => {| l_path := path; l_line := Z.of_nat (i - o); l_column := 1; l_endLine := Z.of_nat (i - o); l_endColumn := 2 |} |};
     cx_lang := {| lo_objc := false; lo_cxx := true; lo_c99 := false; lo_cuda := false |};
     cx_tops := [({| t_id := o; t_validLoc := true; t_inMainFile := true; t_kind := TFunction false |}, ex_tree o)];
     cx_evaluate := fun _ => None; cx_lines := fun _ => 1%Z; cx_sameExpr := fun _ _ => false |}.
Definition ex_x := ex_ctx $"a.c" 100 6.      (* the goto is on a commented line *)
Definition ex_y := ex_ctx $"b.c" 200 8.      (* the variable j is *)
Definition ex_tools (x y : tuctx) : toolchain tuctx :=
  {| tc_abspath := fun s => s; tc_db := fun p => [Build_command p [$"cc"; p]]; tc_adjust := fun l _ => l;
     tc_mainExecutable := $"oclint"; tc_jobs := fun argv => ([Build_job true $"clang" argv], [], []);
     tc_chdir := fun _ d => Some d; tc_diagnosticsCreated := fun _ => true;
     tc_frontend := fun cwd _ => {| fr_diagnostics := []; fr_context := Some (if str_eqb cwd $"a.c" then x else y) |} |}.
Definition ex_inputs (x y : tuctx) : inputs := {| in_tools := ex_tools x y; in_sources := [$"a.c"; $"b.c"]; in_cwd := $"/w" |}.
Lemma ex_compiled x y : compiled (ex_inputs x y) [x; y].
Proof.
  assert (R : forall p, (p = $"a.c" \/ p = $"b.c") -> replaced $"\ " $" " p p).
  { intros p Hp. apply rp_none. intros a b E.
    assert (I : In "\"%char p) by (rewrite E; apply in_or_app; right; left; reflexivity).
    destruct Hp; subst p; vm_compute in I; intuition discriminate. }
  assert (P : forall p, plain_argv $"oclint" [$"cc"; p] (match filter (fun a => negb (str_eqb a $"-gmodules")) [$"oclint"; p] with l => l ++ [$"-D__OCLINT__"] end)).
  { intros p. exists $"cc", [p], (filter (fun a => negb (str_eqb a $"-gmodules")) [$"oclint"; p]). split; auto. split; auto.
    apply filter_sublist_where. intros a. rewrite negb_true_iff. apply str_eqb_neq. }
  exists [{| fr_diagnostics := []; fr_context := Some x |}; {| fr_diagnostics := []; fr_context := Some y |}], $"b.c". split.
  - apply uc_cons with (cwd1 := $"a.c"); [|apply uc_cons with (cwd1 := $"b.c"); [|constructor]].
    + exists $"a.c". do 2 eexists. repeat split; [apply R; auto|apply P|].
      eexists. exists []. repeat split; auto.
    + exists $"b.c". do 2 eexists. repeat split; [apply R; auto|apply P|].
      eexists. exists []. repeat split; auto.
  - repeat apply gu_good; try constructor; cbn; auto; intros d [].
Qed.
Lemma address_iff x i : address x i <-> In i (flat_map (fun t => map n_id (nodes (snd t))) (cx_tops x)).
Proof.
  unfold address. rewrite in_flat_map. split.
  - intros (t & root & n & Ht & Hn & <-). exists (t, root). split; auto. now apply in_map.
  - intros ([t root] & Ht & H). apply in_map_iff in H as (n & <- & Hn). exists t, root, n. auto.
Qed.
Example c112_case :
  compiled (ex_inputs ex_x ex_y) [ex_x; ex_y] /\ separate [ex_x; ex_y] /\ well_formed ex_x
  /\ exists c, driver_of (ex_inputs ex_x ex_y) (os_initial exm_cl) [10; 52; 63] = (c, Val tt)
     /\ map (map (fun v => (v_rule v, v_startLine v))) (c_collection c)
        = [[(Some 52, 8%Z); (Some 63, 0%Z)]; [(Some 10, 6%Z); (Some 63, 0%Z)]].
Proof.
  split; [apply ex_compiled|]. split.
  - constructor; [|constructor; [intros y []|constructor]]. intros y [<-|[]]. split; [intros E; discriminate E|].
    intros i Hx Hy. apply address_iff in Hx, Hy. vm_compute in Hx, Hy. intuition lia.
  - split; [vm_compute; repeat constructor; auto|]. eexists. split; vm_compute; reflexivity.
Qed.
(** The process on these files, with the rules [loaded]; limits 0. *)
Definition ex_world (loaded : list nat) : world :=
  {| w_list := w_list (exm_world 1 None 0);
     w_rulelib := fun p => if str_eqb p $"/r/a.so" then Some loaded else if str_eqb p $"/r/b.so" then Some [] else None;
     w_replib := w_replib (exm_world 1 None 0); w_read := fun _ => None; w_yaml := fun _ => cf_initial;
     w_env := w_env (exm_world 1 None 0);
     w_cmdline := Some (with_limits exm_cl 0 0 0);
     w_listRules := false; w_canOpen := fun _ => true; w_accepts := fun _ => 0;
     w_rules := fun _ => {| ri_name := []; ri_identifier := []; ri_category := []; ri_priority := 0 |};
     w_driver := fun _ => (c_empty, UB); w_hash := fun _ => 0%Z |}.
(** The goto of a.c is commented, its variable j is not: exit 5 with the short-name rule,
    0 without. *)
Definition ex_z := ex_ctx $"b.c" 200 6.
Example c114_case :
  (exists ev, main (program (ex_world [10; 52]) (ex_inputs ex_x ex_z)) = (ev, Exit 5))
  /\ (exists ev s, main (program (ex_world [10]) (ex_inputs ex_x ex_z)) = (ev, Exit 0)
      /\ options_are (program (ex_world [10]) (ex_inputs ex_x ex_z)) s
      /\ maxP1 s = 0%Z /\ maxP2 s = 0%Z /\ maxP3 s = 0%Z
      /\ rules_loaded (program (ex_world [10]) (ex_inputs ex_x ex_z)) s [10]
      /\ filteredRules shipped_env (os_filter s) (registry [10]) = Val [10]
      /\ compiled (ex_inputs ex_x ex_z) [ex_x; ex_z] /\ separate [ex_x; ex_z]
      /\ ri_priority (shipped_env 10) = 3%Z /\ nth_error shipped_rules 10 = Some sh_GotoStatement).
Proof.
  split; [eexists; vm_compute; reflexivity|].
  assert (M : exists ev, main (program (ex_world [10]) (ex_inputs ex_x ex_z)) = (ev, Exit 0)) by (eexists; vm_compute; reflexivity).
  destruct M as [ev M].
  exists ev. destruct (main_exit _ _ _ M) as [X _]. remember 0%Z as z eqn:E in X. destruct X; try discriminate.
  exists s. split; auto. split; auto.
  assert (K : rules = [10] /\ maxP1 s = 0%Z /\ maxP2 s = 0%Z /\ maxP3 s = 0%Z /\ filteredRules shipped_env (os_filter s) (registry [10]) = Val [10]).
  { destruct H as (cl & Hcl & Hp). cbn [w_cmdline program ex_world] in Hcl. injection Hcl as <-. vm_compute in Hp. injection Hp as <-.
    split; [|repeat split; vm_compute; reflexivity].
    destruct H0 as (ps & As & _ & R & _). rewrite (asked_det _ _ _ As) in R.
    match type of As with asked ?w (rulesPath _ ?s) _ =>
      assert (L : exists ls, consumeArgRulesPath w (rulesPath (w_env w) s) l_initial = (ls, Val tt) /\ l_rules ls = Some [Some 10])
        by (eexists; split; vm_compute; reflexivity) end.
    destruct L as (ls & L & L'). destruct (rules_loaded_intro _ _ _ L) as (rules' & Er & R' & _).
    rewrite (registered_det _ _ _ _ R R'). rewrite L', registry_eq in Er.
    destruct rules' as [|a [|b rest]]; cbn in Er; try discriminate. injection Er as <-. reflexivity. }
  destruct K as (-> & K1 & K2 & K3 & K4). repeat (split; [assumption|]).
  split; [apply ex_compiled|]. split; [|split; reflexivity].
  constructor; [|constructor; [intros y []|constructor]]. intros y [<-|[]]. split; [intros E'; discriminate E'|].
  intros i Hx Hy. apply address_iff in Hx, Hy. vm_compute in Hx, Hy. intuition lia.
Qed.
(** Finding: by default the units of a run are freed one after the other, and a later unit can
    lie at the addresses of an earlier one.  Then the short-name rule loses a variable: alone
    it reports [int k] in c.c; after a.c it does not. *)
Definition ex_left : tuctx :=
  {| cx_env := cx_env ex_x; cx_lang := cx_lang ex_x;
     cx_tops := [({| t_id := 100; t_validLoc := true; t_inMainFile := true; t_kind := TFunction false |},
       nd 100 (FunctionDecl {| f_name := $"f"; f_method := None; f_isDefinition := true; f_bodyLines := 6 |} []
         (Some (nd 101 (CompoundStmt [nd 102 (ForStmt (Some (nd 103 (DeclStmt [ex_decl 104 $"index"]))) [] None None (nd 105 NullStmt))])))))];
     cx_evaluate := fun _ => None; cx_lines := fun _ => 1%Z; cx_sameExpr := fun _ _ => false |}.
Definition ex_again : tuctx :=
  {| cx_env := cx_env (ex_ctx $"c.c" 100 99); cx_lang := cx_lang ex_x;
     cx_tops := [({| t_id := 100; t_validLoc := true; t_inMainFile := true; t_kind := TFunction false |},
       nd 100 (FunctionDecl {| f_name := $"g"; f_method := None; f_isDefinition := true; f_bodyLines := 6 |} []
         (Some (nd 101 (CompoundStmt [nd 102 (DeclStmt [ex_decl 104 $"k"])])))))];
     cx_evaluate := fun _ => None; cx_lines := fun _ => 1%Z; cx_sameExpr := fun _ _ => false |}.
Theorem c112_reused_memory_refuted : exists i s c x y v,
  enableGlobalAnalysis s = false /\ compiled i [x; y] /\ agree x y /\ well_formed x /\ well_formed y
  /\ driver_of i s [52] = (c, Val tt)
  /\ alone (os_cfg s) 52 y [v] /\ c_collection c = [[]; []].
Proof.
  exists (ex_inputs ex_left ex_again), (os_initial exm_cl). do 2 eexists. exists ex_again. eexists.
  split; [reflexivity|]. split; [apply ex_compiled|]. split; [intros E; discriminate E|].
  split; [vm_compute; repeat constructor; auto|]. split; [vm_compute; repeat constructor; auto|].
  split; [vm_compute; reflexivity|]. split; [|reflexivity].
  apply alone_iff. do 2 eexists. split; vm_compute; reflexivity.
Qed.
(** Finding: a file that is compiled twice, the second time without the annotated declaration: the
    suppressed lines of the first time count for the second, too, though other rules ran between. *)
Definition ex_long (o : nat) (annotated : bool) : tuctx :=
  {| cx_env := {| e_unit := {| u_path := $"a.c"; u_content := repeat "x"%char 101 ++ [NL]; u_comments := Some [];
                               u_top := if annotated then [{| td_validLoc := true; td_inMainFile := true;
                                  td_visited := [{| vd_decl := Decl [$"oclint:suppress"] None; vd_startLine := 1; vd_endLine := 2 |}] |}] else [] |};
                  e_decl := fun _ => Decl [] None; e_parents := fun _ => NoParent;
                  e_loc := fun i => {| l_path := $"a.c"; l_line := Z.of_nat (i - o); l_column := 1; l_endLine := Z.of_nat (i - o); l_endColumn := 2 |} |};
     cx_lang := cx_lang ex_x; cx_tops := cx_tops (ex_ctx $"a.c" o 6);
     cx_evaluate := fun _ => None; cx_lines := fun _ => 1%Z; cx_sameExpr := fun _ _ => false |}.
Theorem c112_same_file_twice_refuted : exists i s c x y v g1 g2,
  compiled i [x; y] /\ disjoint_memory x y /\ well_formed x /\ well_formed y
  /\ u_path (main_unit x) = u_path (main_unit y) /\ u_content (main_unit x) = u_content (main_unit y) /\ u_comments (main_unit x) = u_comments (main_unit y)
  /\ driver_of i s [62; 10] = (c, Val tt)
  /\ alone (os_cfg s) 62 y [v] /\ alone (os_cfg s) 10 x [g1] /\ alone (os_cfg s) 10 y [g2] /\ c_collection c = [[g1]; [g2]].
Proof.
  exists (ex_inputs (ex_long 100 true) (ex_long 200 false)), (os_initial exm_cl). eexists. exists (ex_long 100 true), (ex_long 200 false). do 3 eexists.
  split; [apply ex_compiled|]. split; [intros i Hx Hy; apply address_iff in Hx, Hy; vm_compute in Hx, Hy; intuition lia|].
  split; [vm_compute; repeat constructor; auto|]. split; [vm_compute; repeat constructor; auto|].
  split; [reflexivity|]. split; [reflexivity|]. split; [reflexivity|]. split; [vm_compute; reflexivity|].
  split; [apply alone_iff; do 2 eexists; split; vm_compute; reflexivity|].
  split; [apply alone_iff; do 2 eexists; split; vm_compute; reflexivity|].
  split; [apply alone_iff; do 2 eexists; split; vm_compute; reflexivity|]. reflexivity.
Qed.
Example c113_case : exists vs,
  alone cfg_fresh 52 ex_y vs /\ vs = [] /\ (forall r, ~ open_finding cfg_fresh ex_y 52 r)
  /\ (exists w, alone cfg_fresh (size_index SMethodLines) ex_y [w] /\ v_message w = $"Method with 60 lines exceeds limit of 50")
  /\ intForKey cfg_fresh (size_key SMethodLines) (size_default SMethodLines) = Val (50%Z, cfg_fresh).
Proof.
  assert (A : alone cfg_fresh 52 ex_y []) by (apply alone_iff; do 2 eexists; split; vm_compute; reflexivity).
  exists []. split; [exact A|]. split; [reflexivity|]. split; [|split].
  - apply (c114_silent_iff_no_open_finding cfg_fresh 52 ex_y sh_ShortVariableName BStack); eauto; try discriminate.
    vm_compute. repeat constructor; auto.
  - eexists. split; [apply alone_iff; do 2 eexists; split; vm_compute; reflexivity|vm_compute; reflexivity].
  - vm_compute. reflexivity.
Qed.
(** The other file first, and another set of rules: the same violations of rule 52. *)
Example c115_case :
  compiled (ex_inputs ex_x ex_y) [ex_x; ex_y] /\ compiled (ex_inputs ex_y ex_x) [ex_y; ex_x]
  /\ exists c1 c2 v w, driver_of (ex_inputs ex_x ex_y) (os_initial exm_cl) [10; 52] = (c1, Val tt)
     /\ driver_of (ex_inputs ex_y ex_x) (os_initial exm_cl) [52; 63] = (c2, Val tt)
     /\ c_collection c1 = [[v]; [w]] /\ v_rule v = Some 52
     /\ exists l1 l2, c_collection c2 = [l1; v :: l2].
Proof.
  split; [apply ex_compiled|]. split; [apply ex_compiled|]. do 4 eexists.
  split; [vm_compute; reflexivity|]. split; [vm_compute; reflexivity|]. split; [vm_compute; reflexivity|].
  split; [reflexivity|]. do 2 eexists. vm_compute. reflexivity.
Qed.

Print Assumptions c112_each_rule_on_its_own.
Print Assumptions c112_completes.
Print Assumptions c112_same_file_twice_refuted.
Print Assumptions c113_findings_exactly.
Print Assumptions c113_long_lines.
Print Assumptions c113_size_rules.
Print Assumptions c114_success_iff_silent.
Print Assumptions c114_silent_iff_no_open_finding.
Print Assumptions c114_success_leaves_nothing_open.
Print Assumptions c114_success_bounds_sizes.
Print Assumptions c114_success_excludes_pattern.
Print Assumptions c114_success_means_no_goto.
Print Assumptions c114_success_bounds_lines.
Print Assumptions c115_rows_are_the_shipped_rules.
Print Assumptions c115_other_rules_and_files_do_not_matter.
Print Assumptions c115_order_of_files.
Print Assumptions c112_reused_memory_refuted.
