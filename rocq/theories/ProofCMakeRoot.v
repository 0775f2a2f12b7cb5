(** * Configuring the rules: lemmas for C146 *)
From Verif Require Import Base BaseFacts ModelScaffold ModelCMake ModelCMakeTexts SpecCMake ProofCMake ProofCMakeRules.

Lemma nodup_map : forall {X Y : Type} (f : X -> Y) l, (forall a b, f a = f b -> a = b) -> NoDup l -> NoDup (map f l).
Proof.
  intros X Y f l I N. induction N as [|x l Nx N IH]; [constructor|]. cbn [map]. constructor; [|exact IH].
  intros J. apply in_map_iff in J as (z & E & J). apply I in E. subst z. contradiction.
Qed.
Section Configure.
  Variables (F : files) (binary : str) (config : variables -> option variables) (project : str).
  Notation steps := (steps F binary config).
  Hypothesis lists : forall p, In p [$"lib/CMakeLists.txt"; $"lib/helper/CMakeLists.txt"; $"lib/util/CMakeLists.txt"] ->
    F (project ++ $"/" ++ p) = Some (text_of rules_lists p).
  Variables given v : variables.
  Hypothesis Config : config (at_include $"OCLINT_RULES" project binary given) = Some v.
  Hypothesis no_modules : given $"CMAKE_MODULE_PATH" = None.
  Hypothesis Sp : no_semicolon project.
  Hypothesis Sb : no_semicolon binary.
  Variable y : str.
  Hypothesis Cu : v current = Some project.
  Hypothesis Pb : v $"PROJECT_BINARY_DIR" = Some binary.
  Hypothesis Gy : v $"CMAKE_SYSTEM_NAME" = Some y.
  Hypothesis Ny : no_semicolon y.
  Hypothesis Xy : y <> [].

  Lemma macros_run : forall dir rest s s2, s_macros s = [] ->
    steps dir rest {| s_vars := s_vars s; s_macros := rules_macros; s_targets := s_targets s; s_tests := s_tests s; s_dirs := s_dirs s |} s2 ->
    steps dir (macro_definitions ++ rest) s s2.
  Proof.
    intros dir rest [v' m t te d] s2 M R. cbn [s_macros s_vars s_targets s_tests s_dirs] in *. subst m. unfold macro_definitions. rewrite <- !app_assoc. cbn [app].
    eapply (steps_macro _ _ _ _ _ _ rule_body _ $"build_dynamic_rule" [$"name"]); [reflexivity|reflexivity| |].
    { unfold plain_values. cbn [c_args cmd]. rewrite !values_ulit by (reflexivity || discriminate). reflexivity. }
    eapply (steps_macro _ _ _ _ _ _ rules_body _ $"build_dynamic_rules" [$"rules"]); [reflexivity|reflexivity| |].
    { unfold plain_values. cbn [c_args cmd]. rewrite !values_ulit by (reflexivity || discriminate). reflexivity. }
    eapply (steps_macro _ _ _ _ _ _ category_body _ $"add_rule_category_directory" [$"category"]); [reflexivity|reflexivity| |].
    { unfold plain_values. cbn [c_args cmd]. rewrite !values_ulit by (reflexivity || discriminate). reflexivity. }
    exact R.
  Qed.

  (** Down to the search paths. *)
  Definition initial : cstate := {| s_vars := assign given current (Some project); s_macros := []; s_targets := []; s_tests := []; s_dirs := [] |}.
  Lemma head_run : forall rest s2, steps project rest {| s_vars := v; s_macros := []; s_targets := []; s_tests := []; s_dirs := [] |} s2 ->
         steps project (firstn 6 root_commands ++ rest) initial s2.
  Proof.
    set (v0 := assign (assign (assign given current (Some project)) $"OCLINT_RULES_SOURCE_DIR" (Some project)) $"PROJECT_BINARY_DIR" (Some binary)).
    set (m := project ++ $"/../oclint-core/cmake").
    set (v1 := assign v0 $"CMAKE_MODULE_PATH" (Some (list_of [m]))).
    assert (Cv : config v1 = Some v).
    { rewrite <- Config. unfold v1. change (list_of [m]) with (m ++ []). rewrite app_nil_r. reflexivity. }
    intros rest s2 R. unfold root_commands. cbn [firstn app].
    eapply steps_builtin; [reflexivity|reflexivity|apply builtin_nothing; cbn; tauto|].
    eapply (steps_builtin _ _ _ _ _ _ _ (with_vars v0 initial)); [reflexivity|reflexivity| |].
    { unfold builtin, plain_values. cbn [c_args cmd]. rewrite !values_ulit by (reflexivity || discriminate). reflexivity. }
    eapply (steps_builtin _ _ _ _ _ _ _ (with_vars v1 initial)); [reflexivity|reflexivity| |].
    { assert (Mp : plain_values (s_vars (with_vars v0 initial)) [u $"CMAKE_MODULE_PATH"; u $"${CMAKE_MODULE_PATH}"; q $"${CMAKE_CURRENT_SOURCE_DIR}/../oclint-core/cmake"]
                   = [$"CMAKE_MODULE_PATH"; m]).
      { unfold plain_values. rewrite values_ulit by (reflexivity || discriminate). cbn [map snd]. f_equal.
        replace (values _ _) with [(true, m)]; [reflexivity|].
        change (values _ _) with (map (pair false) (elements [] (match given $"CMAKE_MODULE_PATH" with Some x => x | None => [] end ++ [])) ++ [(true, m)]).
        rewrite no_modules. reflexivity. }
      rewrite (builtin_set _ _ _ _ _ $"CMAKE_MODULE_PATH" m []); [reflexivity|reflexivity|exact Mp|].
      cbn [existsb]. rewrite Bool.orb_false_r. apply Bool.orb_false_iff. unfold m. split; apply str_eqb_neq; intros E;
        apply (f_equal (fun l => existsb (ascii_eqb "/"%char) l)) in E; rewrite existsb_app, Bool.orb_true_r in E; discriminate. }
    eapply (steps_builtin _ _ _ _ _ _ _ (with_vars v initial)); [reflexivity|reflexivity| |].
    { unfold builtin, plain_values. cbn [c_args cmd]. rewrite !values_ulit by (reflexivity || discriminate).
      change (s_vars (with_vars v1 initial)) with v1. rewrite Cv. reflexivity. }
    eapply steps_builtin; [reflexivity|reflexivity|apply builtin_nothing; cbn; tauto|].
    eapply steps_builtin; [reflexivity|reflexivity|apply builtin_nothing; cbn; tauto|]. exact R.
  Qed.

  Definition static_names : list str := [$"OCLintHelper"; $"OCLintUtil"; $"OCLintAbstractRule"].
  Lemma rules_configured : forall D text,
    false_constant (match v $"TEST_BUILD" with Some x => x | None => [] end) = true ->
    F (project ++ $"/rules/CMakeLists.txt") = Some text -> commands_in text = Some (macro_definitions ++ map category_call (map fst D)) ->
    Forall (category_ok F (project ++ $"/rules")) D -> NoDup (map fst D) ->
    NoDup (static_names ++ map (fun n => n ++ $"Rule") (tree_classes D)) ->
    exists ts s, steps project root_commands initial s /\ s_targets s = statics project ++ ts /\ tree_libraries binary (project ++ $"/rules") D ts /\ s_tests s = [].
  Proof.
    intros D text Tb T C O Nd Nn. pose proof head_run as Head.
    destruct (lib_run F binary config project lists (skipn 7 root_commands) v) as (s1 & T1 & D1 & M1 & E1 & V1 & Lib).
    set (sub := project ++ $"/rules").
    set (s2 := {| s_vars := assign v current (Some sub); s_macros := rules_macros; s_targets := s_targets s1; s_tests := s_tests s1; s_dirs := s_dirs s1 ++ [sub] |}).
    assert (Se : setting binary s2).
    { split; [reflexivity|]. split; [exact Pb|]. exists y. split; [exact Gy|auto]. }
    destruct (categories_run F binary config binary Sb sub D s2) as (ts & s3 & G3 & L3 & R3); auto.
    { unfold sub. semi. }
    { unfold fresh_names. cbn [s2 s_targets]. rewrite T1. exact Nn. }
    { cbn [s2 s_dirs]. rewrite D1.
      assert (Di : NoDup (map (app project) ([$"/lib"; $"/lib/helper"; $"/lib/util"; $"/rules"] ++ map (fun d => $"/rules" ++ $"/" ++ fst d) D))).
      { apply nodup_map; [intros a b E; exact (app_inv_head _ _ _ E)|].
        assert (Dn : NoDup (map (fun d : category => $"/rules" ++ $"/" ++ fst d) D)).
        { replace (map _ D) with (map (fun n => $"/rules" ++ $"/" ++ n) (map fst D)) by (rewrite map_map; reflexivity). apply nodup_map; [|exact Nd].
          intros a b E. apply app_inv_head in E. apply app_inv_head in E. exact E. }
        repeat (cbn [app]; apply NoDup_cons; [intros I; cbn [In] in I; repeat destruct I as [I|I]; try discriminate; apply in_map_iff in I as (d & E & _); discriminate|]).
        exact Dn. }
      match goal with |- NoDup ?l => replace l with (map (app project) ([$"/lib"; $"/lib/helper"; $"/lib/util"; $"/rules"] ++ map (fun d : category => $"/rules" ++ $"/" ++ fst d) D)); [exact Di|] end.
      rewrite map_app, map_map. change (map (app project) [$"/lib"; $"/lib/helper"; $"/lib/util"] ++ [sub]) with (map (app project) [$"/lib"; $"/lib/helper"; $"/lib/util"; $"/rules"]).
      f_equal. apply map_ext. intros d. unfold sub. rewrite <- app_assoc. reflexivity. }
    exists ts, (with_vars (s_vars s1) s3). split; [|split; [|split; [exact L3|]]].
    2:{ cbn [with_vars s_targets]. rewrite (proj1 G3). cbn [s2 s_targets]. rewrite T1. reflexivity. }
    2:{ cbn [with_vars s_tests]. destruct G3 as (_ & _ & _ & -> & _). exact E1. }
    change root_commands with (firstn 6 root_commands ++ (cmd $"add_subdirectory" [u $"lib"] :: skipn 7 root_commands)). apply Head, Lib.
    eapply (steps_if _ _ _ project _ _ _ false); [reflexivity|reflexivity| | |apply steps_nil].
    { unfold root_commands. cbn [c_args cmd]. rewrite values_ulit by (reflexivity || discriminate). unfold values. cbn [flat_map condition].
      change (true_constant $"TEST_BUILD") with false. change (false_constant $"TEST_BUILD") with false. cbv iota. rewrite V1.
      destruct (v $"TEST_BUILD") as [x|]; [rewrite Tb; reflexivity|reflexivity]. }
    cbn [i_else]. rewrite <- (app_nil_r project) at 1.
    eapply (step_subdirectory F binary config project [] $"rules" [] _ _ _ [$"/lib"; $"/lib/helper"; $"/lib/util"]); [split; [discriminate|apply checked; reflexivity]|exact D1|reflexivity|exact T|exact C| |].
    - apply macros_run; [exact M1|]. change ([] ++ $"/" ++ $"rules") with $"/rules". fold sub. cbn [with_dir with_vars s_vars s_targets s_tests s_dirs]. rewrite V1. exact R3.
    - apply steps_nil.
  Qed.
End Configure.
