(** * C146: cases and findings *)
From Verif Require Import Base BaseFacts ModelScaffold SpecScaffold PropScaffold ModelCMake ModelCMakeTexts ModelCMakeConfig SpecCMake ModelRuleTable ProofCMake ProofCMakeRules ProofCMakeRoot PropCMake PropCMakeTests.

(** A concrete case: a copy in /oclint/oclint-rules, on Linux. *)
Definition home : str := $"/oclint/oclint-rules".
Definition sample : files := fun p =>
  match find (fun e => str_eqb (home ++ $"/" ++ fst e) p) (rules_lists ++ rules_templates) with
  | Some (_, t) => Some t
  | None => if existsb (fun e => str_eqb (home ++ $"/" ++ e) p) rules_sources then Some [] else None
  end.
Definition ends_with_list (p : str) : bool := str_eqb (skipn (length p - 15) p) $"/CMakeLists.txt".
Lemma sample_checkout : checkout home sample.
Proof.
  split; [|split].
  - assert (H : forallb (fun e => match sample (home ++ $"/" ++ fst e) with Some t => str_eqb t (snd e) | None => false end) (rules_lists ++ rules_templates) = true)
      by (vm_compute; reflexivity).
    rewrite forallb_forall in H. intros p t I. specialize (H _ I). cbn [fst snd] in H. destruct (sample _) as [t'|]; [|discriminate]. apply str_eqb_eq in H. congruence.
  - assert (H : forallb (fun p => match sample (home ++ $"/" ++ p) with Some _ => true | None => false end) rules_sources = true) by (vm_compute; reflexivity).
    rewrite forallb_forall in H. intros p I. specialize (H _ I). destruct (sample _); discriminate.
  - intros p. unfold sample.
    assert (H : forallb (fun e => negb (ends_with_list e)) (map fst rules_templates ++ rules_sources) = true) by (vm_compute; reflexivity).
    rewrite forallb_forall in H.
    assert (X : ends_with_list (p ++ $"/CMakeLists.txt") = true).
    { unfold ends_with_list. rewrite app_length. change (length $"/CMakeLists.txt") with 15. replace (length p + 15 - 15) with (length p) by lia.
      rewrite skipn_app, skipn_all, Nat.sub_diag. reflexivity. }
    destruct (find _ _) as [[q t]|] eqn:Fi.
    + intros _. apply find_some in Fi as [I E]. cbn [fst] in E. apply str_eqb_eq in E. apply app_inv_head, app_inv_head in E. subst q.
      apply in_app_iff in I as [I|I]; [exact (in_map fst _ _ I)|]. exfalso.
      specialize (H (p ++ $"/CMakeLists.txt") (in_or_app _ _ _ (or_introl (in_map fst _ _ I)))). rewrite X in H. discriminate.
    + match goal with |- context [existsb ?h rules_sources] => destruct (existsb h rules_sources) eqn:Ex end; [|congruence]. intros _. exfalso. apply existsb_exists in Ex as (q & I & E). apply str_eqb_eq in E.
      apply app_inv_head, app_inv_head in E. subst q. specialize (H _ (in_or_app _ _ _ (or_intror I))). rewrite X in H. discriminate.
Qed.
Definition linux : variables := fun k => if str_eqb k $"CMAKE_SYSTEM_NAME" then Some $"Linux" else None.
(** LLVM is found and tells its version; so is nvcc. *)
Definition around : surroundings := {|
  e_files := fun _ => None;
  e_llvm := fun v => Some (assign v $"LLVM_PACKAGE_VERSION" (Some $"10.0.0"));
  e_libnames := map (app $"LLVM");
  e_match := fun _ t => t;
  e_program := fun n => if str_eqb n $"nvcc" then Some $"/usr/local/cuda/bin/nvcc" else None
|}.
Definition building : variables -> option variables := oclint_config around.
Lemma sample_machine : machine $"OCLINT_RULES" home $"/oclint/build" around linux.
Proof.
  split; [| | | | |reflexivity].
  - cbn. intros H. repeat destruct H as [H|H]; discriminate || contradiction.
  - cbn. intros H. repeat destruct H as [H|H]; discriminate || contradiction.
  - assert (X : match oclint_config around (at_include $"OCLINT_RULES" home $"/oclint/build" linux) with Some _ => true | None => false end = true) by (vm_compute; reflexivity).
    intros E. rewrite E in X. clear E. discriminate X.
  - intros v w k I E. injection E as <-. cbn [In] in I. repeat destruct I as [<-|I]; reflexivity || destruct I.
  - exists $"Linux". split; [reflexivity|]. split; [discriminate|]. cbn. intros H. repeat destruct H as [H|H]; discriminate || contradiction.
Qed.
Definition asked (class category : str) (test : bool) : ruleargs :=
  {| ra_class_name := class; ra_rule_type := $"ASTVisitor"; ra_category := category; ra_name := []; ra_priority := 3; ra_test := test |}.
Lemma class_check : forall c, match c with x :: r => isupper x && forallb isalpha r | [] => false end = true -> proper_class c.
Proof.
  intros [|x r] H; [discriminate|]. apply andb_true_iff in H as [U R]. exists x, r. split; [reflexivity|]. split; [exact U|apply checked, R].
Qed.
Lemma asked_sensible : forall class category test, match class with x :: r => isupper x && forallb isalpha r | [] => false end = true ->
  category <> [] -> forallb (fun c => negb (existsb (ascii_eqb c) ["/"; "{"; "}"; "."]%char)) category = true -> sensible (asked class category test).
Proof.
  intros class category test C N H.
  assert (X : forall c, In c category -> ~ In c ["/"; "{"; "}"; "."]%char).
  { rewrite forallb_forall in H. intros c I J. specialize (H c I). apply Bool.negb_true_iff in H.
    assert (Y : existsb (ascii_eqb c) ["/"; "{"; "}"; "."]%char = true) by (apply existsb_exists; exists c; split; [exact J|apply ascii_eqb_eq; reflexivity]). congruence. }
  split; [apply class_check, C|]. split; [|split; [|split]]; cbn [asked ra_category ra_name ra_priority].
  - split; [exact N|]. split; [intros I; apply (X _ I); cbn; auto|]. split; intros ->; apply (X "."%char); cbn; auto.
  - intros c I [->| ->]; apply (X _ I); cbn; auto.
  - intros c [].
  - lia.
Qed.
Lemma asked_buildable : forall class category test, match class with x :: r => isupper x && forallb isalpha r | [] => false end = true ->
  category <> [] -> forallb (fun c => isalpha c || isdigit c || ascii_eqb c "_" || ascii_eqb c "-") category = true ->
  class <> $"CACHE" -> class <> $"OCLintAbstract" -> buildable (asked class category test).
Proof.
  intros class category test C N H K1 K2.
  assert (P : plain_directory category /\ forallb (fun c => negb (existsb (ascii_eqb c) ["/"; "{"; "}"; "."]%char)) category = true).
  { rewrite forallb_forall in H. split.
    - split; [exact N|]. apply Forall_forall. intros c I. specialize (H c I). rewrite !Bool.orb_true_iff in H. cbn [In]. destruct H as [[[H|H]|H]|H]; auto; apply ascii_eqb_eq in H; subst c; auto.
    - apply forallb_forall. intros c I. specialize (H c I). apply Bool.negb_true_iff. destruct (existsb _ _) eqn:E; [|reflexivity]. exfalso.
      apply existsb_exists in E as (x & J & E). apply ascii_eqb_eq in E. subst x. cbn [In] in J. destruct J as [<-|[<-|[<-|[<-|[]]]]]; discriminate. }
  split; [apply asked_sensible; tauto|]. split; [right; right; left; reflexivity|]. split; [apply P|]. auto.
Qed.
Lemma one_step : forall l f a, history home sample l f -> Forall buildable l -> sensible a -> rule_type (ra_rule_type a) ->
  history home sample (l ++ [a]) (fst (scaffoldRule home f a)).
Proof.
  intros l f a H O Sa Ty. destruct (history_tree _ _ _ _ sample_checkout H O) as [Ba _]. destruct (scaffolded home a f Ba Sa Ty) as (h & R & _).
  eapply h_rule; [exact H|]. rewrite R. reflexivity.
Qed.
Definition mine : list ruleargs := [asked $"MyFirst" $"my_rules" true; asked $"MySecond" $"my_rules" false; asked $"BetterGoto" $"basic" true].
Example c146_case : exists g, history home sample mine g /\ Forall buildable mine /\ new_rules mine /\ machine $"OCLINT_RULES" home $"/oclint/build" around linux
  /\ off linux $"TEST_BUILD".
Proof.
  assert (B1 : buildable (asked $"MyFirst" $"my_rules" true)) by (apply asked_buildable; (reflexivity || discriminate)).
  assert (B2 : buildable (asked $"MySecond" $"my_rules" false)) by (apply asked_buildable; (reflexivity || discriminate)).
  assert (B3 : buildable (asked $"BetterGoto" $"basic" true)) by (apply asked_buildable; (reflexivity || discriminate)).
  assert (O1 : Forall buildable (firstn 1 mine)) by exact (Forall_cons _ B1 (Forall_nil _)).
  assert (O2 : Forall buildable (firstn 2 mine)) by exact (Forall_cons _ B1 (Forall_cons _ B2 (Forall_nil _))).
  assert (O : Forall buildable mine) by exact (Forall_cons _ B1 (Forall_cons _ B2 (Forall_cons _ B3 (Forall_nil _)))).
  pose proof (one_step [] sample _ (h_start _ _) (Forall_nil _) (proj1 B1) (proj1 (proj2 B1))) as H1.
  pose proof (one_step (firstn 1 mine) _ _ H1 O1 (proj1 B2) (proj1 (proj2 B2))) as H2.
  pose proof (one_step (firstn 2 mine) _ _ H2 O2 (proj1 B3) (proj1 (proj2 B3))) as H3.
  eexists. split; [exact H3|]. split; [exact O|]. split; [|split; [apply sample_machine|left; reflexivity]].
  split; [repeat (apply NoDup_cons; [cbn [In map mine asked ra_class_name]; intros H; repeat destruct H as [H|H]; discriminate || contradiction|]); apply NoDup_nil|].
    intros a r Ia Ir Bu E.
    assert (Z : forallb (fun r => forallb (fun a => negb (str_eqb (sh_file r) (ra_class_name a ++ $"Rule.cpp"))) mine) shipped_rules = true) by (vm_compute; reflexivity).
    rewrite forallb_forall in Z. specialize (Z _ Ir). rewrite forallb_forall in Z. specialize (Z _ Ia). rewrite E, str_eqb_refl in Z. discriminate.
Qed.

(** The same with the tests, CUDA's too. *)
Definition testing : variables := fun k => if str_eqb k $"TEST_BUILD" then Some $"1" else linux k.
Example c146_tests_case : exists g, history home sample mine g /\ Forall buildable mine /\ new_tests mine
  /\ machine $"OCLINT_RULES" home $"/oclint/build" around testing /\ test_machine around testing
  /\ on testing $"TEST_BUILD" /\ e_program around $"nvcc" <> None.
Proof.
  destruct c146_case as (g & H & O & _). exists g. split; [exact H|]. split; [exact O|]. split.
  { unfold new_tests. change (map ra_class_name (filter ra_test mine)) with [$"MyFirst"; $"BetterGoto"].
    constructor; [intros [I|[]]; discriminate|]. constructor; [intros []|constructor]. }
  destruct sample_machine as [M1 M2 _ M4 _ _]. split.
  { split; [exact M1|exact M2| |exact M4| |reflexivity].
    - assert (X : match oclint_config around (at_include $"OCLINT_RULES" home $"/oclint/build" testing) with Some _ => true | None => false end = true) by (vm_compute; reflexivity).
      intros E. rewrite E in X. clear E. discriminate X.
    - exists $"Linux". split; [reflexivity|]. split; [discriminate|]. cbn. intros I. repeat destruct I as [I|I]; discriminate || contradiction. }
  split.
  { split; [|reflexivity|reflexivity|].
    - intros l Nl. apply Forall_forall. intros n I. cbn [around e_libnames] in I. apply in_map_iff in I as (c & <- & I). rewrite Forall_forall in Nl.
      split; [discriminate|]. split; [|split; discriminate]. intros J. apply in_app_iff in J as [J|J]; [|exact (Nl c I J)]. cbn in J. repeat destruct J as [J|J]; discriminate || contradiction.
    - intros n p E. cbn [around e_program] in E. destruct (str_eqb n $"nvcc") eqn:X; [|discriminate]. apply str_eqb_eq in X. subst n. injection E as <-. exists $"/usr/local/cuda/bin/". reflexivity.
  }
  split; [eexists; split; [reflexivity|]; cbn [In]; auto|discriminate].
Qed.

(** ** Findings *)
Lemma configure_settles : forall F binary config project given n r, configure F binary config n project given = r -> r <> Exhausted ->
  forall fuel, n <= fuel -> configure F binary config fuel project given = r.
Proof.
  intros F binary config project given n r R N fuel L. unfold configure in *. destruct (F _) as [text|]; [|exact R]. destruct (commands_in text) as [l|]; [|exact R].
  set (i := {| s_vars := _ |}) in *. assert (X : run F binary config n project l i <> Exhausted) by (intros E; rewrite E in R; congruence).
  replace fuel with (n + (fuel - n)) by lia. rewrite (run_enough _ _ _ _ _ _ _ _ X). exact R.
Qed.
(** Asked for twice, the rule breaks the build; so does the same class in another category. *)
Theorem c146_again_refuted : exists a g, buildable a /\ history home sample [a; a] g /\ rejected g $"/oclint/build" building home linux.
Proof.
  set (a := asked $"MyFirst" $"my_rules" false). assert (O : buildable a) by (apply asked_buildable; (reflexivity || discriminate)).
  exists a. eexists. split; [exact O|]. split.
  - apply (one_step [a]); [|auto|apply O|apply O]. apply (one_step []); [apply h_start|constructor|apply O|apply O].
  - exists 400. apply configure_settles; [|discriminate]. vm_compute. reflexivity.
Qed.
Theorem c146_two_categories_refuted : exists a b g, buildable a /\ buildable b /\ ra_category a <> ra_category b /\ history home sample [a; b] g
  /\ rejected g $"/oclint/build" building home linux.
Proof.
  set (a := asked $"MyFirst" $"my_rules" false). assert (O : buildable a) by (apply asked_buildable; (reflexivity || discriminate)).
  set (b := asked $"MyFirst" $"basic" false). assert (O' : buildable b) by (apply asked_buildable; (reflexivity || discriminate)).
  exists a, b. eexists. split; [exact O|]. split; [exact O'|]. split; [discriminate|]. split.
  - apply (one_step [a]); [|auto|apply O'|apply O']. apply (one_step []); [apply h_start|constructor|apply O|apply O].
  - exists 400. apply configure_settles; [|discriminate]. vm_compute. reflexivity.
Qed.
(** Two class names no rule can have: the library of the one is there already, the other is a word
    of CMake's own. *)
Theorem c146_class_name_refuted : forall class, In class [$"OCLintAbstract"; $"CACHE"] ->
  exists g, sensible (asked class $"basic" false) /\ history home sample [asked class $"basic" false] g
    /\ rejected g $"/oclint/build" building home linux.
Proof.
  intros class I. cbn [In] in I.
  assert (Sa : sensible (asked class $"basic" false)) by (destruct I as [<-|[<-|[]]]; apply asked_sensible; (reflexivity || discriminate)).
  eexists. split; [exact Sa|]. split; [apply (one_step []); [apply h_start|constructor|exact Sa|right; right; left; reflexivity]|].
  exists 400. apply configure_settles; [|discriminate]. destruct I as [<-|[<-|[]]]; vm_compute; reflexivity.
Qed.
(** A category with a blank in its name is accepted, and its rules are never built. *)
Theorem c146_blank_refuted : exists a g s, sensible a /\ history home sample [a] g
  /\ configures g $"/oclint/build" building home linux s /\ is_target (ra_class_name a ++ $"Rule") (s_targets s) = false.
Proof.
  set (a := asked $"MyFirst" $"my rules" false). assert (Sa : sensible a) by (apply asked_sensible; (reflexivity || discriminate)).
  assert (R : exists s, configure (fst (scaffoldRule home sample a)) $"/oclint/build" building 400 home linux = Done s
                        /\ is_target (ra_class_name a ++ $"Rule") (s_targets s) = false).
  { assert (X : match configure (fst (scaffoldRule home sample a)) $"/oclint/build" building 400 home linux with
                | Done s => is_target (ra_class_name a ++ $"Rule") (s_targets s) = false | _ => False end) by (vm_compute; reflexivity).
    destruct (configure _ _ _ _ _ _) as [s| |]; [exists s; auto|contradiction|contradiction]. }
  destruct R as (s & R & T). exists a. eexists. exists s. split; [exact Sa|]. split; [|split; [|exact T]].
  - apply (one_step []); [apply h_start|constructor|exact Sa|right; right; left; reflexivity].
  - exists 400. apply configure_settles; [exact R|discriminate].
Qed.

Print Assumptions c146_again_refuted.
Print Assumptions c146_two_categories_refuted.
Print Assumptions c146_class_name_refuted.
Print Assumptions c146_blank_refuted.
