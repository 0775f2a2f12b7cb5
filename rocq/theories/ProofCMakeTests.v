(** * Configuring the tests of the rules: lemmas for C146 *)
From Verif Require Import Base BaseFacts ModelScaffold ModelCMake ModelCMakeTexts SpecCMake ProofCMake ProofCMakeRules ProofCMakeRoot.

(** A program of tests and its sources; for CUDA only, or always. *)
Definition program := (str * list str)%type.
Definition item := (bool * program)%type.
Definition program_call (p : program) : command := call $"build_test" (fst p :: snd p).
Definition item_commands (i : item) : list command :=
  if fst i then [call $"if" [$"TEST_CUDA"]; program_call (snd i); call $"endif" []] else [program_call (snd i)].
Definition test_body : list command :=
  [cmd $"add_executable" [u $"${name}"; u $"${ARGN}"]; cmd $"target_link_libraries" [u $"${name}"; u $"${TEST_LIBS}"];
   cmd $"add_test" [u $"${name}"; u $"${EXECUTABLE_OUTPUT_PATH}/${name}"]].
Definition test_macros : list (str * (list str * list command)) := [($"build_test", ([$"name"], test_body))].
Definition program_ok (p : program) : Prop := name_like (fst p) /\ snd p <> [] /\ Forall name_like (snd p).
Definition more (ts : list target) (te : list (str * list str)) (ds : list str) (s : cstate) : cstate :=
  {| s_vars := s_vars s; s_macros := s_macros s; s_targets := s_targets s ++ ts; s_tests := s_tests s ++ te; s_dirs := s_dirs s ++ ds |}.
Lemma more_nil : forall s, more [] [] [] s = s.
Proof. intros [v m t te d]. unfold more. cbn. rewrite !app_nil_r. reflexivity. Qed.
Lemma more_more : forall t1 e1 d1 t2 e2 d2 s, more t2 e2 d2 (more t1 e1 d1 s) = more (t1 ++ t2) (e1 ++ e2) (d1 ++ d2) s.
Proof. intros t1 e1 d1 t2 e2 d2 s. unfold more. cbn. rewrite !app_assoc. reflexivity. Qed.

Section Tests.
  Variables (F : files) (binary : str) (config : variables -> option variables).
  Notation steps := (steps F binary config).
  Variables (libs : list str) (out : str) (cuda : bool).
  Hypothesis Hl : Forall (fun s => no_semicolon s /\ s <> []) libs.
  Hypothesis Ho : no_semicolon out.

  Definition test_setting (s : cstate) : Prop :=
    s_macros s = test_macros /\ s_vars s $"TEST_LIBS" = Some (list_of libs) /\ s_vars s $"EXECUTABLE_OUTPUT_PATH" = Some out
    /\ match s_vars s $"TEST_CUDA" with Some x => negb (false_constant x) | None => false end = cuda.
  Definition executable (dir : str) (p : program) : target :=
    {| t_name := fst p; t_kind := Executable; t_sources := map (join dir) (snd p); t_properties := []; t_links := libs |}.
  Definition test_of (p : program) : str * list str := (fst p, [out ++ $"/" ++ fst p]).

  Lemma program_run : forall dir p rest s s2, program_ok p -> test_setting s -> is_target (fst p) (s_targets s) = false ->
    steps dir rest (more [executable dir p] [test_of p] [] s) s2 -> steps dir (program_call p :: rest) s s2.
  Proof.
    intros dir [n srcs] rest s s2 (Ln & Es & Ls) (M & Tl & Eo & _) Fr R. cbn [fst snd] in *.
    assert (Ns : Forall (fun x => no_semicolon x /\ x <> []) srcs).
    { eapply Forall_impl; [|exact Ls]. intros x X. split; [apply names_no_semicolon, X|apply X]. }
    pose proof (names_no_semicolon n (proj2 Ln)) as Nn. pose proof (proj1 Ln) as Xn.
    assert (A : plain_values (s_vars s) (c_args (program_call (n, srcs))) = n :: srcs).
    { apply (values_bares (s_vars s) (n :: srcs)). constructor; auto. }
    eapply (steps_call _ _ _ dir _ rest [$"name"] test_body); [reflexivity| | | |exact R].
    { rewrite M. reflexivity. }
    { rewrite A. cbn. lia. }
    rewrite A. set (b := bindings [$"name"] (n :: srcs)). rewrite map_inst.
    change (map _ test_body) with
      [cmd $"add_executable" [inst b (u $"${name}"); inst b (u $"${ARGN}")]; cmd $"target_link_libraries" [inst b (u $"${name}"); inst b (u $"${TEST_LIBS}")];
       cmd $"add_test" [inst b (u $"${name}"); inst b (u $"${EXECUTABLE_OUTPUT_PATH}/${name}")]].
    assert (Vn : forall v, val (over b v) $"${name}" = n) by (intros v; change (n ++ [] = n); apply app_nil_r).
    assert (Va : forall v, val (over b v) $"${ARGN}" = list_of srcs) by (intros v; change (list_of srcs ++ [] = list_of srcs); apply app_nil_r).
    assert (Vt : val (over b (s_vars s)) $"${TEST_LIBS}" = list_of libs).
    { change (match s_vars s $"TEST_LIBS" with Some x => x | None => [] end ++ [] = list_of libs). rewrite Tl. apply app_nil_r. }
    assert (Ve : val (over b (s_vars s)) $"${EXECUTABLE_OUTPUT_PATH}/${name}" = out ++ $"/" ++ n).
    { change (match s_vars s $"EXECUTABLE_OUTPUT_PATH" with Some x => x | None => [] end ++ $"/" ++ n ++ [] = out ++ $"/" ++ n). rewrite Eo, app_nil_r. reflexivity. }
    replace s with (with_vars (s_vars s) s) at 1 by (destruct s; reflexivity).
    eapply (step_add _ _ _ dir _ _ n Executable srcs).
    { unfold no_macro. rewrite M. reflexivity. }
    { exact Fr. }
    { right. split; [reflexivity|]. split; [|reflexivity]. unfold plain_values. cbn [c_args cmd]. rewrite (values_iu _ _ _ n) by auto. cbn [map snd]. f_equal.
      rewrite values_il, Va, elements_list by exact Ns. apply app_nil_r. }
    eapply (step_links _ _ _ dir _ _ n Executable _ _ _ libs).
    { reflexivity. }
    { unfold no_macro. rewrite M. reflexivity. }
    { exact Fr. }
    { unfold plain_values. cbn [c_args cmd]. rewrite (values_iu _ _ _ n) by auto. cbn [map snd]. f_equal.
      rewrite values_il, Vt, elements_list by exact Hl. apply app_nil_r. }
    eapply steps_builtin; [reflexivity| | |apply steps_nil].
    { unfold newest. cbn [with_vars with_targets s_macros]. rewrite M. reflexivity. }
    rewrite (builtin_test _ _ _ _ _ n (out ++ $"/" ++ n) []).
    - unfold with_test, newest, more, executable, test_of. cbn [with_vars with_targets s_vars s_macros s_targets s_tests s_dirs app fst snd]. rewrite app_nil_r. reflexivity.
    - reflexivity.
    - unfold plain_values, newest. cbn [c_args cmd with_vars s_vars]. rewrite (values_iu _ _ _ n) by auto.
      rewrite (values_iu _ _ _ (out ++ $"/" ++ n)); [reflexivity|exact Ve| |].
      + apply no_semicolon_app; [exact Ho|]. apply no_semicolon_app; [apply semicolon_check; reflexivity|exact Nn].
      + apply app_not_nil. right. discriminate.
  Qed.

  Definition active (l : list item) : list program := map snd (filter (fun i => negb (fst i) || cuda) l).
  Lemma setting_more : forall ts te ds s, test_setting s -> test_setting (more ts te ds s).
  Proof. intros ts te ds s H. exact H. Qed.
  Lemma items_run : forall dir l s, Forall (fun i => program_ok (snd i)) l -> test_setting s ->
    NoDup (map t_name (s_targets s) ++ map fst (active l)) ->
    steps dir (flat_map item_commands l) s (more (map (executable dir) (active l)) (map test_of (active l)) [] s).
  Proof.
    intros dir l. induction l as [|[g p] l IH]; intros s O Se Fr.
    - cbn [flat_map active filter map]. rewrite more_nil. apply steps_nil.
    - inversion_clear O as [|? ? Op Os]. cbn [snd] in Op. cbn [flat_map].
      assert (Go : (negb g || cuda = true -> steps dir (flat_map item_commands l) (more [executable dir p] [test_of p] [] s)
                      (more (map (executable dir) (active ((g, p) :: l))) (map test_of (active ((g, p) :: l))) [] s)
                      /\ is_target (fst p) (s_targets s) = false)
                   /\ (negb g || cuda = false -> steps dir (flat_map item_commands l) s
                      (more (map (executable dir) (active ((g, p) :: l))) (map test_of (active ((g, p) :: l))) [] s))).
      { unfold active in *. cbn [filter fst]. destruct (negb g || cuda) eqn:A; (split; [intros X|intros X]); try discriminate.
        - cbn [map snd]. change (map (executable dir) ?x) with ([] ++ map (executable dir) x) at 1.
          unfold active in Fr. cbn [filter fst] in Fr. rewrite A in Fr. cbn [map snd] in Fr. destruct (nodup_step _ _ _ Fr) as [F1 F2].
          split; [|apply is_target_not, F1].
          specialize (IH (more [executable dir p] [test_of p] [] s) Os Se). rewrite more_more in IH. apply IH.
          cbn [more s_targets]. rewrite map_app. exact F2.
        - apply IH; auto. unfold active in Fr. cbn [filter fst] in Fr. rewrite A in Fr. exact Fr. }
      destruct Go as [G1 G2]. destruct g; cbn [item_commands fst snd].
      + cbn [negb orb] in *. pose proof Se as (M & Tl & Eo & Cu).
        assert (Cd : condition F (s_vars s) (values (s_vars s) (c_args (call $"if" [$"TEST_CUDA"]))) = Some cuda).
        { cbn [c_args call map]. rewrite values_bare by (try apply semicolon_check; reflexivity || discriminate). unfold values. cbn [flat_map condition].
          change (true_constant $"TEST_CUDA") with false. change (false_constant $"TEST_CUDA") with false. cbv iota. rewrite Cu. reflexivity. }
        change ([call $"if" [$"TEST_CUDA"]; program_call p; call $"endif" []] ++ flat_map item_commands l)
          with (call $"if" [$"TEST_CUDA"] :: program_call p :: call $"endif" [] :: flat_map item_commands l).
        destruct cuda.
        * destruct (G1 eq_refl) as [R Fn]. eapply (steps_if _ _ _ dir _ _ _ true); [reflexivity|reflexivity|exact Cd| |exact R].
          cbn [i_then]. apply program_run; [exact Op|exact Se|exact Fn|apply steps_nil].
        * eapply (steps_if _ _ _ dir _ _ _ false); [reflexivity|reflexivity|exact Cd| |exact (G2 eq_refl)]. cbn [i_else]. apply steps_nil.
      + destruct (G1 eq_refl) as [R Fn]. cbn [app]. apply program_run; auto.
  Qed.

  (** A directory of tests. *)
  Definition tests_dir := (str * list item)%type.
  Definition dir_call (d : str) : command := call $"add_subdirectory" [d].
  Definition tests_ok (dir : str) (d : tests_dir) : Prop :=
    name_like (fst d) /\ Forall (fun i => program_ok (snd i)) (snd d)
    /\ exists text, F (list_of_category dir (fst d)) = Some text /\ commands_in text = Some (flat_map item_commands (snd d)).
  Lemma dir_run : forall dir d rest s s2, tests_ok dir d -> test_setting s ->
    NoDup (map t_name (s_targets s) ++ map fst (active (snd d))) -> ~ In (dir ++ $"/" ++ fst d) (s_dirs s) ->
    steps dir rest (more (map (executable (dir ++ $"/" ++ fst d)) (active (snd d))) (map test_of (active (snd d))) [dir ++ $"/" ++ fst d] s) s2 ->
    steps dir (dir_call (fst d) :: rest) s s2.
  Proof.
    intros dir [c l] rest s s2 (Lc & Ol & text & T & C) Se Fr Id R. cbn [fst snd] in *. set (sub := dir ++ $"/" ++ c) in *.
    set (s0 := with_dir sub (with_vars (assign (s_vars s) current (Some sub)) s)).
    assert (Se0 : test_setting s0) by exact Se.
    pose proof (items_run sub l s0 Ol Se0 Fr) as R1.
    eapply (steps_subdirectory _ _ _ dir _ rest c text); [reflexivity| | | |exact C| |].
    - apply (values_bares (s_vars s) [c]). constructor; [|constructor]. split; [apply names_no_semicolon, Lc|apply Lc].
    - rewrite (join_name dir c Lc). replace (join (dir ++ $"/" ++ c) $"CMakeLists.txt") with (list_of_category dir c); [exact T|].
      unfold list_of_category. change (join (dir ++ $"/" ++ c) $"CMakeLists.txt") with ((dir ++ $"/" ++ c) ++ $"/CMakeLists.txt"). rewrite <- !app_assoc. reflexivity.
    - rewrite (join_name dir c Lc). fold sub. destruct (existsb _ _) eqn:E; [|reflexivity]. apply existsb_exists in E as (x & I & E). apply str_eqb_eq in E. subst x. contradiction.
    - rewrite (join_name dir c Lc). fold sub. exact R1.
    - replace (with_vars _ _) with (more (map (executable sub) (active l)) (map test_of (active l)) [sub] s); [exact R|].
      unfold more. cbn. rewrite app_nil_r. reflexivity.
  Qed.
  Definition all_programs (D : list tests_dir) : list program := flat_map (fun d => active (snd d)) D.
  Definition all_executables (dir : str) (D : list tests_dir) : list target :=
    flat_map (fun d => map (executable (dir ++ $"/" ++ fst d)) (active (snd d))) D.
  Lemma executables_names : forall dir D, map t_name (all_executables dir D) = map fst (all_programs D).
  Proof.
    intros dir D. unfold all_executables, all_programs. induction D as [|d D IH]; [reflexivity|]. cbn [flat_map]. rewrite !map_app, IH, map_map. reflexivity.
  Qed.
  Lemma dirs_run : forall dir D s, Forall (tests_ok dir) D -> test_setting s ->
    NoDup (map t_name (s_targets s) ++ map fst (all_programs D)) -> NoDup (s_dirs s ++ map (fun d => dir ++ $"/" ++ fst d) D) ->
    steps dir (map dir_call (map fst D)) s (more (all_executables dir D) (map test_of (all_programs D)) (map (fun d => dir ++ $"/" ++ fst d) D) s).
  Proof.
    intros dir D. induction D as [|d D IH]; intros s O Se Fr Di.
    - cbn [map flat_map all_executables all_programs]. rewrite more_nil. apply steps_nil.
    - inversion_clear O as [|? ? Od Os]. cbn [map] in *. destruct (nodup_step _ _ _ Di) as [Dd Di'].
      change (all_programs (d :: D)) with (active (snd d) ++ all_programs D) in *. rewrite map_app, app_assoc in Fr.
      apply dir_run; [exact Od|exact Se|exact (nodup_first _ _ Fr)|exact Dd|].
      specialize (IH (more (map (executable (dir ++ $"/" ++ fst d)) (active (snd d))) (map test_of (active (snd d))) [dir ++ $"/" ++ fst d] s) Os Se).
      rewrite more_more, <- map_app in IH. apply IH.
      + cbn [more s_targets]. rewrite map_app, map_map. exact Fr.
      + cbn [more s_dirs]. exact Di'.
  Qed.
End Tests.

(** ** The list above *)
Definition lib_arguments : list argument :=
  [u $"test_helper"; u $"OCLintAbstractRule"; u $"OCLintMetric"; u $"OCLintHelper"; u $"OCLintUtil"; u $"OCLintCore"; u $"OCLintRuleSet";
   u $"${GTEST_LIBS}"; u $"gtest_main"; u $"gmock_main"; u $"${PROFILE_RT_LIBS}"; u $"${CLANG_LIBRARIES}"; u $"${REQ_LLVM_LIBRARIES}"].
Definition canary : program := ($"CanaryTest", [$"CanaryTest.cpp"]).
Definition test_head : list command :=
  [cmd $"add_library" [u $"test_helper"; u $"headers/TestRuleOnCode.cpp"]; cmd $"set" (u $"TEST_LIBS" :: lib_arguments);
   cmd $"macro" [u $"build_test"; u $"name"]] ++ test_body ++ [cmd $"endmacro" [u $"build_test"]; program_call canary].
Definition other_libs : list str := [$"GTEST_LIBS"; $"PROFILE_RT_LIBS"; $"CLANG_LIBRARIES"; $"REQ_LLVM_LIBRARIES"].
Definition listed_in (v : variables) (k : str) : list str := elements [] (match v k with Some x => x | None => [] end).
Definition test_libs (v : variables) : list str :=
  [$"test_helper"; $"OCLintAbstractRule"; $"OCLintMetric"; $"OCLintHelper"; $"OCLintUtil"; $"OCLintCore"; $"OCLintRuleSet"]
  ++ listed_in v $"GTEST_LIBS" ++ [$"gtest_main"; $"gmock_main"] ++ listed_in v $"PROFILE_RT_LIBS" ++ listed_in v $"CLANG_LIBRARIES"
  ++ listed_in v $"REQ_LLVM_LIBRARIES".
Lemma elements_fine : forall s cur, no_semicolon cur -> Forall (fun s => no_semicolon s /\ s <> []) (elements cur s).
Proof.
  induction s as [|c s IH]; intros cur N; cbn [elements].
  - destruct cur as [|x cur]; constructor; [|constructor]. split; [exact N|discriminate].
  - destruct (ascii_eqb c ";") eqn:E.
    + apply Forall_app. split; [|apply IH; intros []]. destruct cur as [|x cur]; constructor; [|constructor]. split; [exact N|discriminate].
    + apply IH. intros I. apply in_app_iff in I as [I|[I|[]]]; [contradiction|]. subst c. discriminate.
Qed.
Lemma values_list : forall v k r, map snd (values v ({| a_quoted := false; a_text := [Ref k] |} :: r)) = listed_in v k ++ map snd (values v r).
Proof.
  intros v k r. unfold values. cbn [flat_map a_quoted a_text expand]. rewrite map_app, map_map. cbn [snd]. rewrite map_id.
  unfold listed_in, expand. cbn [flat_map]. rewrite app_nil_r. reflexivity.
Qed.
Lemma test_libs_are : forall v, plain_values v lib_arguments = test_libs v.
Proof.
  intros v. unfold plain_values, lib_arguments, test_libs. rewrite !values_ulit by (reflexivity || discriminate). cbn [map snd app]. do 7 f_equal.
  change (u $"${GTEST_LIBS}") with {| a_quoted := false; a_text := [Ref $"GTEST_LIBS"] |}. rewrite values_list. f_equal.
  rewrite !values_ulit by (reflexivity || discriminate). cbn [map snd app]. do 2 f_equal.
  change (u $"${PROFILE_RT_LIBS}") with {| a_quoted := false; a_text := [Ref $"PROFILE_RT_LIBS"] |}. rewrite values_list. f_equal.
  change (u $"${CLANG_LIBRARIES}") with {| a_quoted := false; a_text := [Ref $"CLANG_LIBRARIES"] |}. rewrite values_list. f_equal.
  change (u $"${REQ_LLVM_LIBRARIES}") with {| a_quoted := false; a_text := [Ref $"REQ_LLVM_LIBRARIES"] |}. rewrite values_list. apply app_nil_r.
Qed.
Lemma test_libs_fine : forall v, Forall (fun s => no_semicolon s /\ s <> []) (test_libs v).
Proof.
  intros v. assert (L : forall k, Forall (fun s => no_semicolon s /\ s <> []) (listed_in v k)) by (intros k; apply elements_fine; intros []).
  assert (P : forall l, forallb (fun s => forallb (fun c => negb (ascii_eqb c ";"%char)) s && negb (is_nil s)) l = true -> Forall (fun s => no_semicolon s /\ s <> []) l).
  { intros l H. rewrite forallb_forall in H. apply Forall_forall. intros s I. specialize (H s I). apply andb_true_iff in H as [A B]. split; [apply semicolon_check, A|].
    intros ->. discriminate. }
  unfold test_libs. apply Forall_app; split; [apply P; reflexivity|]. apply Forall_app; split; [apply L|]. apply Forall_app; split; [apply P; reflexivity|].
  apply Forall_app; split; [apply L|]. apply Forall_app; split; apply L.
Qed.
Definition no_keyword (l : list str) : Prop := ~ In $"CACHE" l /\ ~ In $"PARENT_SCOPE" l.
Lemma test_libs_plain : forall v, (forall k, In k other_libs -> no_keyword (listed_in v k)) -> no_keyword (test_libs v).
Proof.
  intros v H. assert (G : forall w, In w [$"CACHE"; $"PARENT_SCOPE"] -> (forall k, In k other_libs -> ~ In w (listed_in v k)) -> ~ In w (test_libs v)).
  { intros w W K I. unfold test_libs in I. rewrite !in_app_iff in I.
    assert (X : forall l, forallb (fun x => negb (str_eqb x $"CACHE") && negb (str_eqb x $"PARENT_SCOPE")) l = true -> ~ In w l).
    { intros l C J. rewrite forallb_forall in C. specialize (C _ J). cbn [In] in W. destruct W as [<-|[<-|[]]]; discriminate. }
    destruct I as [I|[I|[I|[I|[I|I]]]]]; first [(refine (X _ _ I); reflexivity) | (refine (K _ _ I); cbn; tauto)]. }
  split; apply G; cbn [In]; auto; intros k I; apply (H k I).
Qed.

Section TestRoot.
  Variables (F : files) (binary : str) (config : variables -> option variables) (project : str).
  Notation steps := (steps F binary config).
  Hypothesis lists : forall p, In p [$"lib/CMakeLists.txt"; $"lib/helper/CMakeLists.txt"; $"lib/util/CMakeLists.txt"] ->
    F (project ++ $"/" ++ p) = Some (text_of rules_lists p).
  Variables given v : variables.
  Hypothesis Config : config (at_include $"OCLINT_RULES" project binary given) = Some v.
  Hypothesis no_modules : given $"CMAKE_MODULE_PATH" = None.
  Hypothesis Sp : no_semicolon project.
  Hypothesis Sb : no_semicolon binary.
  Variable out : str.
  Hypothesis Out : v $"EXECUTABLE_OUTPUT_PATH" = Some out.
  Hypothesis Ho : no_semicolon out.
  Hypothesis Libs : forall k, In k other_libs -> no_keyword (listed_in v k).
  Variable cuda : bool.
  Hypothesis Cuda : match v $"TEST_CUDA" with Some x => negb (false_constant x) | None => false end = cuda.

  Definition helper_library : target := static_library (project ++ $"/test") $"test_helper" [$"headers/TestRuleOnCode.cpp"].
  Definition test_static_names : list str := static_names ++ [$"test_helper"; $"CanaryTest"].
  Lemma tests_configured : forall D text x,
    v $"TEST_BUILD" = Some x -> false_constant x = false ->
    F (project ++ $"/test/CMakeLists.txt") = Some text -> commands_in text = Some (test_head ++ map dir_call (map fst D)) ->
    Forall (tests_ok F (project ++ $"/test")) D -> NoDup (map fst D) ->
    NoDup (test_static_names ++ map fst (all_programs cuda D)) ->
    exists libs s, steps project root_commands (initial project given) s
      /\ s_targets s = statics project ++ [helper_library; executable libs (project ++ $"/test") canary] ++ all_executables libs cuda (project ++ $"/test") D
      /\ s_tests s = map (test_of out) (canary :: all_programs cuda D) /\ libs = test_libs v /\ s_vars s = v.
  Proof.
    intros D text x Gt Tt T C O Nd Nn. pose proof (head_run F binary config project given v Config no_modules) as Head.
    destruct (lib_run F binary config project lists (skipn 7 root_commands) v) as (s1 & T1 & D1 & M1 & E1 & V1 & Lib).
    set (sub := project ++ $"/test"). set (libs := test_libs v).
    set (v2 := assign v current (Some sub)). set (v3 := assign v2 $"TEST_LIBS" (Some (list_of libs))).
    set (s2 := {| s_vars := v3; s_macros := test_macros; s_targets := s_targets s1 ++ [helper_library]; s_tests := s_tests s1; s_dirs := s_dirs s1 ++ [sub] |}).
    assert (Hl : Forall (fun s => no_semicolon s /\ s <> []) libs) by apply test_libs_fine.
    assert (Se : test_setting libs out cuda s2).
    { split; [reflexivity|]. split; [reflexivity|]. split; [exact Out|].
      exact Cuda. }
    set (s3 := more [executable libs sub canary] [test_of out canary] [] s2).
    pose proof (dirs_run F binary config libs out cuda Hl Ho sub D s3 O Se) as R3.
    exists libs. eexists. split; [|split; [|split; [|split; [reflexivity|]]]].
    { change root_commands with (firstn 6 root_commands ++ (cmd $"add_subdirectory" [u $"lib"] :: skipn 7 root_commands)). apply Head, Lib.
      eapply (steps_if _ _ _ project _ _ _ true); [reflexivity|reflexivity| | |apply steps_nil].
      { unfold root_commands. cbn [c_args cmd]. rewrite values_ulit by (reflexivity || discriminate). unfold values. cbn [flat_map condition].
        change (true_constant $"TEST_BUILD") with false. change (false_constant $"TEST_BUILD") with false. cbv iota. rewrite V1.
        rewrite Gt, Tt. reflexivity. }
      cbn [i_then]. eapply steps_builtin; [reflexivity|rewrite M1; reflexivity|apply builtin_nothing; cbn; tauto|].
      rewrite <- (app_nil_r project) at 1.
      eapply (step_subdirectory F binary config project [] $"test" [] _ _ _ [$"/lib"; $"/lib/helper"; $"/lib/util"]); [split; [discriminate|apply checked; reflexivity]|exact D1|reflexivity|exact T|exact C| |apply steps_nil].
      change ([] ++ $"/" ++ $"test") with $"/test". fold sub. unfold test_head. rewrite <- !app_assoc. cbn [app].
      eapply (step_static F binary config _ $"test_helper" $"headers/TestRuleOnCode.cpp" []); [exact M1| | |reflexivity|].
      { cbn [with_dir with_vars s_targets]. rewrite T1. reflexivity. }
      { unfold plain_values. rewrite !values_ulit by (reflexivity || discriminate). reflexivity. }
      eapply (steps_builtin _ _ _ _ _ _ _ {| s_vars := v3; s_macros := []; s_targets := s_targets s1 ++ [helper_library]; s_tests := s_tests s1; s_dirs := s_dirs s1 ++ [sub] |}).
      { reflexivity. }
      { cbn [with_dir with_vars with_targets s_macros]. rewrite M1. reflexivity. }
      { assert (Lb : libs = $"test_helper" :: tl libs) by reflexivity.
        assert (Pv : plain_values v2 (u $"TEST_LIBS" :: lib_arguments) = $"TEST_LIBS" :: $"test_helper" :: tl libs).
        { unfold plain_values. rewrite values_ulit by (reflexivity || discriminate). cbn [map snd]. f_equal.
          change (map snd (values v2 lib_arguments)) with (plain_values v2 lib_arguments). rewrite test_libs_are. reflexivity. }
        rewrite (builtin_set _ _ _ _ _ $"TEST_LIBS" $"test_helper" (tl libs)).
        - rewrite <- Lb. unfold with_dir, with_vars, with_targets. cbn [s_vars s_macros s_targets s_tests s_dirs]. rewrite V1, M1. reflexivity.
        - reflexivity.
        - cbn [with_dir with_vars with_targets s_vars c_args cmd]. rewrite V1. exact Pv.
        - rewrite <- Lb. assert (Kw : no_keyword libs) by (apply test_libs_plain; intros k I; apply Libs, I).
          destruct (existsb _ libs) eqn:X; [|reflexivity]. exfalso. apply existsb_exists in X as (m & I & X).
          apply Bool.orb_true_iff in X as [X|X]; apply str_eqb_eq in X; subst m; [apply (proj1 Kw I)|apply (proj2 Kw I)]. }
      eapply (steps_macro _ _ _ _ _ _ test_body _ $"build_test" [$"name"]); [reflexivity|reflexivity| |].
      { unfold plain_values. cbn [c_args cmd]. rewrite !values_ulit by (reflexivity || discriminate). reflexivity. }
      change (with_macro _ _ _ _) with s2.
      apply (program_run F binary config libs out cuda Hl Ho sub canary); [|exact Se| |].
      { split; [split; [discriminate|apply checked; reflexivity]|]. split; [discriminate|]. constructor; [split; [discriminate|apply checked; reflexivity]|constructor]. }
      { cbn [s2 s_targets]. rewrite T1. reflexivity. }
      fold s3. apply R3.
      - cbn [s3 s2 more s_targets]. rewrite T1. exact Nn.
      - cbn [s3 s2 more s_dirs]. rewrite D1, app_nil_r.
        assert (Di : NoDup (map (app project) ([$"/lib"; $"/lib/helper"; $"/lib/util"; $"/test"] ++ map (fun d => $"/test" ++ $"/" ++ fst d) D))).
        { apply nodup_map; [intros a b E; exact (app_inv_head _ _ _ E)|].
          assert (Dn : NoDup (map (fun d : tests_dir => $"/test" ++ $"/" ++ fst d) D)).
          { replace (map _ D) with (map (fun n => $"/test" ++ $"/" ++ n) (map fst D)) by (rewrite map_map; reflexivity). apply nodup_map; [|exact Nd].
            intros a b E. apply app_inv_head in E. apply app_inv_head in E. exact E. }
          repeat (cbn [app]; apply NoDup_cons; [intros I; cbn [In] in I; repeat destruct I as [I|I]; try discriminate; apply in_map_iff in I as (d & E & _); discriminate|]).
          exact Dn. }
        match goal with |- NoDup ?l => replace l with (map (app project) ([$"/lib"; $"/lib/helper"; $"/lib/util"; $"/test"] ++ map (fun d : tests_dir => $"/test" ++ $"/" ++ fst d) D)); [exact Di|] end.
        rewrite map_app, map_map. change (map (app project) [$"/lib"; $"/lib/helper"; $"/lib/util"] ++ [sub]) with (map (app project) [$"/lib"; $"/lib/helper"; $"/lib/util"; $"/test"]).
        f_equal. apply map_ext. intros d. unfold sub. rewrite <- app_assoc. reflexivity. }
    - cbn [with_vars more s_targets s3 s2]. rewrite T1, <- !app_assoc. reflexivity.
    - cbn [with_vars more s_tests s3 s2]. rewrite E1. reflexivity.
    - cbn [with_vars s_vars]. exact V1.
  Qed.
End TestRoot.
