(** * Every shipped rule, by its name: C116 *)
From Verif Require Import Base BaseFacts ModelResults ModelConfig ModelFilter ModelOptions ModelMain ModelDriver
  ModelSource ModelAST ModelRules ModelRulesBasic ModelRulesConvention ModelRulesNullCheck
  ModelRulesRedundant ModelRulesVars ModelRulesObjC ModelRuleTable ModelProgram
  SpecResults SpecFilter SpecOptions SpecMain SpecAST SpecSource SpecRules SpecRulesBasic SpecRulesConvention SpecRulesNullCheck
  SpecRulesRedundant SpecRulesVars SpecRulesObjC SpecDriver SpecProgram SpecCatalogue
  ProofRules ProofRulesVars ProofProgram
  PropRules PropRulesBasic PropRulesConvention PropRulesNullCheck PropRulesRedundant PropRulesVars PropRulesObjC PropRuleTable PropProgram.
From Coq Require Import Lia.
Local Arguments lit : simpl never.

(** A behaviour and what it has to say about each declaration it inspects. *)
Inductive says (c : cfg) (x : tuctx) : behaviour -> (node -> list report -> Prop) -> Prop :=
| says_visit : forall visit (spec : node -> list report -> Prop),
    (forall root, spec root (reports (visit x) root)) -> says c x (BVisit visit) spec
| says_checked : forall rule (spec : node -> list report -> Prop),
    (forall root rs, rule c x root = Val rs -> spec root rs) -> says c x (BChecked rule) spec
| says_setup : forall rule (spec : node -> list report -> Prop),
    (forall roots rs, rule c x roots = Val rs -> exists rss, Forall2 spec roots rss /\ rs = concat rss) -> says c x (BSetUp rule) spec.

Lemma messages_of_exactly (P : node -> Prop) f (Q : node -> str -> Prop) root rs :
  (forall n, P n <-> exists m, Q n m) -> (forall n m, Q n m -> f n = Report n m) ->
  reports_exactly P f root rs -> reports_messages Q root rs.
Proof.
  intros H1 H2 (sel & S & ->). exists sel. split.
  - induction S; constructor; auto; rewrite <- H1; auto.
  - induction S; cbn [map]; try constructor; auto. apply H1 in H as [m Hm]. exists m. split; auto.
Qed.

(** One entry of the catalogue after the other. *)
Ltac row k := exists k; eexists; eexists; split; [reflexivity|]; split; [reflexivity|].
Lemma size_name kd : sh_name (size_shipped kd) = match kd with
  | SCyclomatic => $"high cyclomatic complexity" | SNcss => $"high ncss method" | SNPath => $"high npath complexity"
  | SDepth => $"deep nested block" | SMethodLines => $"long method" | SClassLines => $"long class"
  | SFields => $"too many fields" | SMethods => $"too many methods" | SParameters => $"too many parameters" end.
Proof. destruct kd; reflexivity. Qed.
Lemma above_says c kd root rs : size_rule kd c root = Val rs -> over_limit c kd root rs.
Proof.
  intros H. destruct (intForKey c (size_key kd) (size_default kd)) as [[T c']|m|] eqn:E.
  - left. exists T, c'. split; auto. intros HT. destruct (sizekind_eq kd SParameters) as [->|N].
    + eapply c52_parameters_above_limit; eauto.
    + eapply c52_strictly_above_limit; eauto.
  - right. assert (N : forall T c', intForKey c (size_key kd) (size_default kd) <> Val (T, c')) by congruence.
    split; [congruence|]. eapply size_rule_silent; eauto.
  - right. assert (N : forall T c', intForKey c (size_key kd) (size_default kd) <> Val (T, c')) by congruence.
    split; [congruence|]. eapply size_rule_silent; eauto.
Qed.
Lemma Forall2_mono {A B} (P Q : A -> B -> Prop) l m : (forall a b, P a b -> Q a b) -> Forall2 P l m -> Forall2 Q l m.
Proof. induction 2; constructor; auto. Qed.
Lemma above_row c x kd : exists k s b, nth_error shipped_behaviours k = Some (s, b) /\ sh_name s = sh_name (size_shipped kd) /\ says c x b (over_limit c kd).
Proof.
  exists (size_index kd), (size_shipped kd). eexists. split; [apply size_row|]. split; [reflexivity|].
  pose proof (above_says c kd) as A.
  destruct kd; cbn [size_behaviour]; try (apply says_checked; exact A);
    (apply says_setup; intros roots rs H; apply setUp_each in H as (rss & F & ->); exists rss; split; auto;
     eapply Forall2_mono; [|exact F]; exact A).
Qed.
Lemma catalogue_rows c x : Forall (fun e => exists k s b, nth_error shipped_behaviours k = Some (s, b) /\ sh_name s = fst e /\ says c x b (snd e)) (catalogue c x).
Proof.
  unfold catalogue. repeat (apply Forall_cons || apply Forall_nil); cbn [fst snd].
  - row 0. apply says_visit. intros. apply c74_bitwise_condition_exactly.
  - row 1. apply says_visit. intros. apply c65_broken_exactly.
  - row 2. apply says_visit. intros. apply c65_broken_exactly.
  - row 3. apply says_visit. intros. apply c75_oddness_check_exactly.
  - row 4. apply says_visit. intros. apply c55_exactly_collapsible.
  - row 5. apply says_visit. intros. apply c79_constant_condition_exactly.
  - row 6. apply says_visit. intros. apply c79_constant_condition_exactly.
  - row 7. apply says_visit. intros. apply c56_reports_first_after_jump.
  - row 8. apply says_visit. intros. apply c62_double_negative_exactly.
  - row 9. apply says_visit. intros. apply c76_for_as_while_exactly.
  - row 10. apply says_visit. intros. apply c79_goto_exactly.
  - row 11. apply says_visit. intros. apply c77_jumbled_exactly.
  - row 12. apply says_visit. intros. apply c65_misplaced_exactly.
  - row 13. apply says_visit. intros. apply c65_misplaced_exactly.
  - row 14. apply says_visit. intros. apply c62_multiple_unary_exactly.
  - row 15. apply says_visit. intros. apply c78_returns_in_finally.
  - row 16. apply says_visit. intros. apply c78_throws_in_finally.
  - row 17. apply says_visit. intros. apply c100_exactly_missing_hash.
  - row 18. apply says_visit. intros. apply c101_exactly_forgotten.
  - row 19. apply says_visit. intros. apply c102_exactly_prohibited.
  - row 20. apply says_checked. intros. now apply c103_reports.
  - row 21. apply says_visit. intros. apply c104_exactly_unimplemented.
  - row 22. apply says_visit. intros. apply c83_exactly_last_in_loop.
  - row 24. apply says_visit. intros. apply c58_unnecessary_default_exactly.
  - row 25. apply says_visit. intros root H. now apply c58_misplaced_default_exactly.
  - row 26. apply says_visit. intros.
    eapply messages_of_exactly; [| |apply c85_polymorphic_without_virtual_destructor].
    + intros n. split; [intros (r & ms & H)|intros (m & r & ms & H1 & H2 & H3 & H4 & _)].
      * eexists. exists r, ms. destruct H as (H1 & H2 & H3 & H4). repeat split; eauto.
      * exists r, ms. auto.
    + intros n m (r & ms & H1 & _ & _ & _ & ->). now rewrite H1.
  - row 27. apply says_visit. intros. apply c81_exactly_negated_two_way.
  - row 28. apply says_visit. intros. apply c57_by_first_unterminated_group.
  - row 29. apply says_visit. intros. apply c80_labels_of_each_switch.
  - row 30. apply says_visit. intros. apply per_node_intro. intros n.
    assert (D : (exists mi ps b, n_shape n = ObjCMethodDecl mi ps b) \/ forall mi ps b, n_shape n <> ObjCMethodDecl mi ps b)
      by (destruct (n_shape n); try (right; discriminate); left; eauto).
    destruct D as [(mi & ps & b & E)|D].
    + left. destruct (c86_assigned_outside_accessors n mi ps b E) as (sel & S & R). exists mi, ps, b, sel. auto.
    + right. split; auto. now apply c86_only_methods.
  - row 31. apply says_visit. intros. apply c84_assignments_to_parameter_names.
  - row 32. apply says_setup. intros roots rs H. pose proof H as V. apply setUp_val in V as (T & c' & E & _).
    apply setUp_each in H as (rss & F & ->). exists rss. split; auto. eapply Forall2_mono; [|exact F].
    intros root rs H. left. exists T, c'. split; auto. eapply c82_exactly_early_exits; eauto.
  - row 33. apply says_visit. intros. apply c58_missing_default_exactly.
  - row 34. apply says_checked. intros root rs H.
    destruct (intForKey c $"MINIMUM_CASES_IN_SWITCH" 3) as [[T c']|m|] eqn:E;
      [|right; split; [congruence|]; eapply limit_silent; [|exact H]; intros; rewrite E; discriminate..].
    left. exists T, c'. split; auto. eapply c59_fewer_than_limit; eauto.
  - row 35. apply says_visit. intros. apply c87_exactly_two_way_ifs.
  - row 36. apply says_visit. intros. apply c98_exactly_virtual_defaults.
  - row 37. apply says_visit. intros. apply c99_exactly_private_static.
  - row 38. apply says_visit. intros. apply (c54_exactly_empty_bodies KCatch).
  - row 39. apply says_visit. intros. apply (c54_exactly_empty_bodies KDo).
  - row 40. apply says_visit. intros. apply (c54_exactly_empty_bodies KElse).
  - row 41. apply says_visit. intros. apply (c54_exactly_empty_bodies KFinally).
  - row 42. apply says_visit. intros. apply (c54_exactly_empty_bodies KFor).
  - row 43. apply says_visit. intros. apply (c54_exactly_empty_bodies KIf).
  - row 44. apply says_visit. intros. apply (c54_exactly_empty_bodies KSwitch).
  - row 45. apply says_visit. intros. apply (c54_exactly_empty_bodies KTry).
  - row 46. apply says_visit. intros. apply (c54_exactly_empty_bodies KWhile).
  - row 47. apply says_visit. intros. apply c105_exactly_boxable.
  - row 48. apply says_visit. intros. apply c105_exactly_container_literals.
  - row 49. apply says_visit. intros. apply c105_exactly_number_literals.
  - row 50. apply says_visit. intros. apply c105_exactly_subscripts.
  - row 51. apply says_checked. intros root rs H.
    destruct (intForKey c $"LONG_VARIABLE_NAME" 20) as [[T c']|m|] eqn:E;
      [|right; split; [congruence|]; eapply long_silent; [|exact H]; intros; rewrite E; discriminate..].
    left. exists T, c'. split; auto. intros HT B. destruct (c64_exactly_long c T c' root E HT B) as (rs' & E' & R).
    assert (rs' = rs) by congruence. now subst.
  - row 53. apply says_visit. intros. apply c61_choice_exactly.
  - row 54. apply says_visit. intros. apply c61_if_exactly.
  - row 55. apply says_visit. intros. apply c88_exactly_redundant.
  - row 56. apply says_visit. intros. apply c91_exactly_redundant.
  - row 58. apply says_visit. intros. apply c90_exactly_guarded.
  - row 59. apply says_visit. intros. apply c89_exactly_useless.
  - exact (above_row c x SCyclomatic).
  - exact (above_row c x SClassLines).
  - exact (above_row c x SMethodLines).
  - exact (above_row c x SNPath).
  - exact (above_row c x SNcss).
  - exact (above_row c x SDepth).
  - exact (above_row c x SFields).
  - exact (above_row c x SMethods).
  - exact (above_row c x SParameters).
  - row 70. apply says_checked. intros root rs H d u D U.
    destruct (c70_exactly_unused c d u root D U) as (rs' & E' & R). assert (rs' = rs) by congruence. now subst.
  - row 71. apply says_visit. intros. apply c92_exactly_parameters.
Qed.

(** ** C116 *)
Lemma names_nodup : NoDup (map sh_name shipped_rules).
Proof. apply nodupb_NoDup. vm_compute. reflexivity. Qed.
(** No two rules have the same name. *)
Theorem c116_one_rule_per_name : forall k k' s s' name, named k s name -> named k' s' name -> k = k' /\ s = s'.
Proof.
  intros k k' s s' name [H N] [H' N'].
  assert (E : k = k').
  { apply (proj1 (NoDup_nth_error _) names_nodup).
    - apply nth_error_Some. rewrite nth_error_map, H. discriminate.
    - rewrite !nth_error_map, H, H'. cbn. congruence. }
  subst. split; congruence.
Qed.
(** Every shipped rule is in the catalogue, but for four. *)
Theorem c116_catalogue_complete : forall c x s, In s shipped_rules ->
  (exists about, In (sh_name s, about) (catalogue c x)) \/ In (sh_name s) special_rules.
Proof.
  intros c x s I.
  assert (Q : forall name, existsb (str_eqb name) (map fst (catalogue c x)) || existsb (str_eqb name) special_rules = true ->
    (exists about, In (name, about) (catalogue c x)) \/ In name special_rules).
  { intros name H. apply orb_true_iff in H as [H|H]; apply existsb_exists in H as (y & Iy & E); apply str_eqb_eq in E; subst; auto.
    left. apply in_map_iff in Iy as ([a b] & <- & Iy). exists b. exact Iy. }
  assert (F : forallb (fun s => existsb (str_eqb (sh_name s)) (map fst (catalogue c x)) || existsb (str_eqb (sh_name s)) special_rules)
                shipped_rules = true) by (vm_compute; reflexivity).
  apply Q. exact (forallb_Forall' _ _ F s I).
Qed.
Lemma named_row k s name : named k s name -> exists b, nth_error shipped_behaviours k = Some (s, b).
Proof.
  intros [H _]. rewrite <- c115_rows_are_the_shipped_rules, nth_error_map in H.
  destruct (nth_error shipped_behaviours k) as [[s' b]|]; [|discriminate]. cbn in H. injection H as ->. eauto.
Qed.
Lemma row_named k s b : nth_error shipped_behaviours k = Some (s, b) -> named k s (sh_name s).
Proof. intros H. split; auto. rewrite <- c115_rows_are_the_shipped_rules, nth_error_map, H. reflexivity. Qed.
Lemma catalogue_says c x name about k s : In (name, about) (catalogue c x) -> named k s name ->
  exists b, nth_error shipped_behaviours k = Some (s, b) /\ says c x b about.
Proof.
  intros I N. pose proof (catalogue_rows c x) as F. rewrite Forall_forall in F. destruct (F _ I) as (k' & s' & b & H & E & Sa).
  cbn [fst snd] in *. apply row_named in H as H'. rewrite E in H'. destruct (c116_one_rule_per_name _ _ _ _ _ N H') as [-> ->]. eauto.
Qed.
(** The rule of that name records what the catalogue says about the declarations it inspects,
    except what is hidden. *)
Theorem c116_named_rule : forall c x name about k s vs, well_formed x ->
  In (name, about) (catalogue c x) -> named k s name -> alone c k x vs -> records x k s about vs.
Proof.
  intros c x name about k s vs Hw I N A. destruct (catalogue_says c x name about k s I N) as (b & Hk & Sa).
  assert (B : b <> BLines) by (intros ->; inversion Sa).
  destruct (proj1 (c113_findings_exactly c k x s b vs Hw Hk B) A) as (decls & rs & kept & D & F & S & ->).
  destruct Sa as [visit about H|rule about H|rule about H]; inversion F; subst.
  - exists decls, (map (reports (visit x)) decls), kept. split; auto. split; [|split; auto].
    + clear - H. induction decls; cbn [map]; constructor; auto.
    + rewrite <- flat_map_concat_map. unfold reports. now rewrite collect_roots.
  - exists decls, rss, kept. split; auto. split; auto. clear - H H1. induction H1; constructor; auto.
  - match goal with E : rule _ _ _ = _ |- _ => destruct (H _ _ E) as (rss & F2 & ->) end. exists decls, rss, kept. auto.
  - exists [], [], kept. auto.
Qed.

(** Most rules never fail. *)
Theorem c116_completes : forall c x k s b, nth_error shipped_behaviours k = Some (s, b) ->
  (match b with BChecked _ | BSetUp _ | BStack | BLines => False | _ => True end) -> exists vs, alone c k x vs.
Proof.
  intros c x k s b Hk Hb. assert (B : b <> BLines) by (intros ->; auto).
  assert (E : exists st rs, calls b c x [] (set_up x s) (roots_of x s) = Val (st, rs)) by (destruct b; try contradiction; cbn [calls]; eauto).
  destruct E as (st & rs & E). pose proof (takeoff_initial c k x s b Hk B) as T. rewrite E in T. cbn [obind fst snd] in T.
  destruct (fold_left _ _ _) as [vs sc]. exists (recordable vs). apply alone_iff. eauto.
Qed.

(** The four others. *)
Theorem c116_unnecessary_else : forall c x k s vs, well_formed x -> named k s $"unnecessary else statement" -> alone c k x vs ->
  exists decls rs kept, examined x s decls
    /\ (distinct_nodes decls -> exists sel, sublist_where (fun n => exists e, else_unneeded decls n e) (all_nodes decls) sel
          /\ Forall2 (fun n r => exists e, else_unneeded decls n e /\ r = Report e []) sel rs)
    /\ sublist_where (recorded (cx_env x) (sh_attributeName s)) rs kept
    /\ vs = map (violation_of (cx_env x) k) kept.
Proof.
  intros c x k s vs Hw N A.
  destruct (c116_one_rule_per_name _ 57 _ sh_UnnecessaryElseStatement _ N) as [-> ->]; [split; reflexivity|].
  apply (c113_findings_exactly c 57 x _ (BWhole UnnecessaryElseRule) vs Hw eq_refl) in A as (decls & rs & kept & D & F & S & ->); [|discriminate].
  inversion F; subst. exists decls, (UnnecessaryElseRule decls), kept. split; auto. split; auto. apply c60_exactly_unneeded.
Qed.
Theorem c116_short_variable_name : forall c x k s vs T c', well_formed x -> named k s $"short variable name" -> alone c k x vs ->
  intForKey c $"SHORT_VARIABLE_NAME" 3 = Val (T, c') ->
  exists decls rs kept, examined x s decls
    /\ (distinct_nodes decls -> exists sel,
          sublist_where (fun p => (exists name, short_name T (snd p) name) /\ ~ exempt T (fst p) (snd p)) (spots [] (all_nodes decls)) sel
          /\ Forall2 (fun p r => exists name, short_name T (snd p) name /\ r = Report (snd p) (length_message name name $"shorter" T)) sel rs)
    /\ sublist_where (recorded (cx_env x) (sh_attributeName s)) rs kept
    /\ vs = map (violation_of (cx_env x) k) kept.
Proof.
  intros c x k s vs T c' Hw N A HT.
  destruct (c116_one_rule_per_name _ 52 _ sh_ShortVariableName _ N) as [-> ->]; [split; reflexivity|].
  apply (c113_findings_exactly c 52 x _ BStack vs Hw eq_refl) in A as (decls & rs & kept & D & F & S & ->); [|discriminate].
  exists decls, rs, kept. split; auto. split; auto. intros Dn.
  destruct (c63_exactly_short c T c' [] decls HT Dn) as (rs' & sel & E & Q); [intros i []|].
  inversion F; subst. assert (rs' = rs) by congruence. subst. eauto.
Qed.
Theorem c116_base_class_destructor : forall c x k s vs, well_formed x ->
  named k s $"base class destructor should be virtual or protected" -> alone c k x vs ->
  exists decls rs kept, examined x s decls
    /\ Forall (fun r => declaration (rp_node r)) rs
    /\ (forall i msg, In (i, msg) (map (fun r => (n_id (rp_node r), rp_message r)) rs) <->
          exists n d ms base name dfn p dt bs, In n (all_nodes decls) /\ n_shape n = CXXRecordDecl d ms
            /\ cls_defined (r_class d) = true /\ cls_polymorphic (r_class d) = true
            /\ considered_base (r_class d) base /\ unsafe_destructor base /\ base = CxxRecord i name dfn p dt bs
            /\ msg = $"~" ++ name ++ $"() should be protected or virtual according to class " ++ cls_name (r_class d))
    /\ sublist_where (recorded (cx_env x) (sh_attributeName s)) rs kept
    /\ vs = map (violation_of (cx_env x) k) kept.
Proof.
  intros c x k s vs Hw N A.
  destruct (c116_one_rule_per_name _ 23 _ sh_BaseClassDestructorShouldBeVirtualOrProtected _ N) as [-> ->]; [split; reflexivity|].
  apply (c113_findings_exactly c 23 x _ (BBases BaseClassDestructor_visit) vs Hw eq_refl) in A as (decls & rs & kept & D & F & S & ->); [|discriminate].
  inversion F; subst. eexists decls, _, kept. split; auto. split; [|split; [|split; eauto]].
  - apply Forall_forall. intros r Hr. apply in_map_iff in Hr as ([[id nm df po de ba] m] & <- & _). now apply declaration_iff.
  - intros i msg. rewrite map_map, in_map_iff. split.
    + intros ([[id nm df po de ba] m] & E & I). cbn in E. injection E as <- <-.
      apply in_flat_map in I as (n & In_ & I). apply c72_exactly_unsafe_bases in I as (r & ms & E & Df & Po & Cb & Ud & ->).
      exists n, r, ms. do 6 eexists. split; [exact In_|]. repeat split; eauto.
    + intros (n & d & ms & base & nm & df & po & de & ba & In_ & E & Df & Po & Cb & Ud & -> & ->).
      exists (CxxRecord i nm df po de ba, $"~" ++ nm ++ $"() should be protected or virtual according to class " ++ cls_name (r_class d)).
      split; [reflexivity|]. apply in_flat_map. exists n. split; [exact In_|]. apply c72_exactly_unsafe_bases. exists d, ms. auto 10.
Qed.
Theorem c116_long_line : forall c c' T k x s vs ls, named k s $"long line" ->
  intForKey c $"LONG_LINE" 100 = Val (T, c') -> u_path (main_unit x) <> [] ->
  lines_of (u_content (main_unit x)) ls ->
  (alone c k x vs <->
   exists sel, sublist_where (fun l => (T < Z.of_nat (length (snd l)))%Z /\ ~ comment_on (main_unit x) (fst l)
                    /\ ~ in_suppressed_decl (main_unit x) $"long line" (fst l)) (numbered 1 ls) sel
     /\ vs = map (fun l => {| v_rule := Some k; v_path := u_path (main_unit x);
                              v_startLine := fst l; v_startColumn := 1;
                              v_endLine := fst l; v_endColumn := Z.of_nat (length (snd l));
                              v_message := $"Line with " ++ show_Z (Z.of_nat (length (snd l)))
                                           ++ $" characters exceeds limit of " ++ show_Z T |}) sel).
Proof.
  intros c c' T k x s vs ls N. destruct (c116_one_rule_per_name _ 62 _ sh_LongLine _ N) as [-> ->]; [split; reflexivity|].
  apply c113_long_lines with (s := sh_LongLine). reflexivity.
Qed.

(** A run that succeeds with zero limits leaves nothing of any selected rule open, but for the
    branch-divergence rule. *)
Theorem c116_success_leaves_nothing_open : forall w i ev s rules sel xs,
  main (program w i) = (ev, Exit 0) -> options_are (program w i) s ->
  maxP1 s = 0%Z -> maxP2 s = 0%Z -> maxP3 s = 0%Z ->
  rules_loaded (program w i) s rules -> NoDup rules ->
  filteredRules shipped_env (os_filter s) (registry rules) = Val sel -> compiled i xs -> separate xs ->
  forall x name about k sh, In x xs -> well_formed x -> In (name, about) (catalogue (os_cfg s) x) -> name <> $"branch divergence" ->
  named k sh name -> In k sel -> nothing_open x sh about.
Proof.
  intros w i ev s rules sel xs H O M1 M2 M3 L Hd Hsel Hx Hs x name about k sh Ix Hw Ic Nb N Ik.
  assert (P : (1 <= ri_priority (shipped_env k) <= 3)%Z).
  { destruct N as [N En]. unfold shipped_env. rewrite (nth_error_nth _ _ sh_LongLine N). cbn [ri_priority].
    apply nth_error_In in N. destruct (c111_priorities sh N) as [Q|Q]; [lia|]. subst sh. exfalso. apply Nb. rewrite <- En. reflexivity. }
  pose proof (success_silent w i ev s rules sel xs H O M1 M2 M3 L Hd Hsel Hx Hs x k Ix Ik P) as A.
  destruct (c116_named_rule _ _ _ _ _ _ _ Hw Ic N A) as (decls & rss & kept & D & F & S & E).
  symmetry in E. apply map_eq_nil in E. subst kept. exists decls, rss. split; auto. split; auto.
  clear - S. intros r I R. remember [] as nl eqn:E in S. induction S; try discriminate; [destruct I|]. destruct I as [->|I]; auto.
Qed.
(** A method of 60 lines, recorded by the rule of that name. *)
Example c116_case : named 63 sh_LongMethod $"long method" /\ well_formed ex_y
  /\ In ($"long method", over_limit cfg_fresh SMethodLines) (catalogue cfg_fresh ex_y)
  /\ exists w, alone cfg_fresh 63 ex_y [w] /\ records ex_y 63 sh_LongMethod (over_limit cfg_fresh SMethodLines) [w].
Proof.
  assert (I : In ($"long method", over_limit cfg_fresh SMethodLines) (catalogue cfg_fresh ex_y)) by (apply (nth_error_In _ 59); reflexivity).
  assert (N : named 63 sh_LongMethod $"long method") by (split; reflexivity).
  assert (W : well_formed ex_y) by (vm_compute; repeat constructor; auto).
  split; auto. split; auto. split; auto.
  assert (A : exists w, alone cfg_fresh 63 ex_y [w]) by (eexists; apply alone_iff; do 2 eexists; split; vm_compute; reflexivity).
  destruct A as [w A]. exists w. split; auto. eapply c116_named_rule; eauto.
Qed.
Print Assumptions c116_one_rule_per_name.
Print Assumptions c116_catalogue_complete.
Print Assumptions c116_named_rule.
Print Assumptions c116_completes.
Print Assumptions c116_unnecessary_else.
Print Assumptions c116_short_variable_name.
Print Assumptions c116_base_class_destructor.
Print Assumptions c116_long_line.
Print Assumptions c116_success_leaves_nothing_open.
