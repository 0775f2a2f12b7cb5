(** * The build files of the rules: lemmas for C146 *)
From Verif Require Import Base BaseFacts ModelScaffold ModelCMake ModelCMakeTexts ProofCMake.


(** ** The build files of the rules *)
Definition rule_body : list command :=
  [cmd $"if" [u $"${CMAKE_SYSTEM_NAME}"; u $"MATCHES"; q $"Darwin"];
   cmd $"set" [u $"CMAKE_SHARED_LINKER_FLAGS"; q $"-undefined dynamic_lookup"];
   cmd $"endif" [];
   cmd $"add_library" [u $"${name}Rule"; u $"SHARED"; u $"${name}Rule.cpp"];
   cmd $"set_target_properties" [u $"${name}Rule"; u $"PROPERTIES"; u $"LIBRARY_OUTPUT_DIRECTORY"; u $"${PROJECT_BINARY_DIR}/rules.dl";
                                 u $"RUNTIME_OUTPUT_DIRECTORY"; u $"${PROJECT_BINARY_DIR}/rules.dl"];
   cmd $"target_link_libraries" [u $"${name}Rule"; u $"OCLintAbstractRule"];
   cmd $"target_link_libraries" [u $"${name}Rule"; u $"clangASTMatchers"];
   cmd $"target_link_libraries" [u $"${name}Rule"; u $"OCLintMetric"; u $"OCLintHelper"; u $"OCLintUtil"; u $"OCLintCore"];
   cmd $"if" [u $"${CMAKE_SYSTEM_NAME}"; u $"MATCHES"; q $"FreeBSD"];
   cmd $"target_link_libraries" [u $"${name}Rule"; u $"${CLANG_LIBRARIES}"; u $"${REQ_LLVM_LIBRARIES}"; u $"OCLintRuleSet"];
   cmd $"endif" []].
Definition rules_body : list command :=
  [cmd $"foreach" [u $"it"; u $"${rules}"]; cmd $"build_dynamic_rule" [u $"${it}"]; cmd $"endforeach" [u $"it"]].
Definition category_body : list command :=
  [cmd $"if" [u $"EXISTS"; u $"${CMAKE_CURRENT_SOURCE_DIR}/${category}/CMakeLists.txt"];
   cmd $"add_subdirectory" [u $"${category}"]; cmd $"endif" []].
Definition rules_macros : list (str * (list str * list command)) :=
  [($"add_rule_category_directory", ([$"category"], category_body)); ($"build_dynamic_rules", ([$"rules"], rules_body));
   ($"build_dynamic_rule", ([$"name"], rule_body))].
Definition macro_definitions : list command :=
  [cmd $"macro" [u $"build_dynamic_rule"; u $"name"]] ++ rule_body ++ [cmd $"endmacro" [u $"build_dynamic_rule"]]
  ++ [cmd $"macro" [u $"build_dynamic_rules"; u $"rules"]] ++ rules_body ++ [cmd $"endmacro" [u $"build_dynamic_rules"]]
  ++ [cmd $"macro" [u $"add_rule_category_directory"; u $"category"]] ++ category_body ++ [cmd $"endmacro" [u $"add_rule_category_directory"]].
Definition categories : list str :=
  [$"basic"; $"cocoa"; $"convention"; $"cuda"; $"design"; $"empty"; $"migration"; $"naming"; $"redundant"; $"size"; $"unused"].
Definition category_call (d : str) : command := call $"add_rule_category_directory" [d].
Definition text_of (l : list (str * str)) (p : str) : str := match find (fun e => str_eqb (fst e) p) l with Some (_, t) => t | None => [] end.
Lemma rules_root_commands : commands_in (text_of rules_lists $"rules/CMakeLists.txt") = Some (macro_definitions ++ map category_call categories).
Proof. vm_compute. reflexivity. Qed.

Ltac semi := repeat first [assumption | apply no_semicolon_app | (apply names_no_semicolon; assumption) | (apply semicolon_check; reflexivity)].
Ltac full := match goal with
  | |- _ ++ _ <> [] => apply app_not_nil; first [left; assumption | right; discriminate]
  | _ => first [assumption | discriminate] end.
Ltac plain_val := apply val_plain; reflexivity.
Ltac side := match goal with |- val _ _ = _ => first [plain_val | eassumption] | |- no_semicolon _ => semi | |- _ <> [] => full end.

(** What a call of [build_dynamic_rule] adds. *)
Definition rule_links : list str := [$"OCLintAbstractRule"; $"clangASTMatchers"; $"OCLintMetric"; $"OCLintHelper"; $"OCLintUtil"; $"OCLintCore"].
Definition library (B dir n : str) (extra : list str) : target :=
  {| t_name := n ++ $"Rule"; t_kind := Shared; t_sources := [join dir (n ++ $"Rule.cpp")];
     t_properties := [($"LIBRARY_OUTPUT_DIRECTORY", B ++ $"/rules.dl"); ($"RUNTIME_OUTPUT_DIRECTORY", B ++ $"/rules.dl")];
     t_links := rule_links ++ extra |}.
Definition agree (names : list str) (v w : variables) : Prop := forall n, ~ In n names -> v n = w n.
(** Nothing changes but targets and variables. *)
Definition adds (names : list str) (s : cstate) (l : list target) (s' : cstate) : Prop :=
  exists v, s' = with_vars v (with_targets (s_targets s ++ l) s) /\ agree names v (s_vars s).

Section Rules.
  Variables (F : files) (binary : str) (config : variables -> option variables).
  Notation steps := (steps F binary config).
  Variable B : str.
  Hypothesis HB : no_semicolon B.

  Definition setting (s : cstate) : Prop :=
    s_macros s = rules_macros /\ s_vars s $"PROJECT_BINARY_DIR" = Some B
    /\ exists y, s_vars s $"CMAKE_SYSTEM_NAME" = Some y /\ no_semicolon y /\ y <> [].

  Lemma rule_library : forall dir n s, name_like n -> setting s -> is_target (n ++ $"Rule") (s_targets s) = false ->
    exists extra s', steps dir (instance (bindings [$"name"] [n]) rule_body) s s'
      /\ adds [$"CMAKE_SHARED_LINKER_FLAGS"] s [library B dir n extra] s'.
  Proof.
    intros dir n s N (M & PB & y & Sy & Ny & Xy) Fr.
    set (b := bindings [$"name"] [n]).
    destruct N as [Nn Nc]. pose proof (names_no_semicolon n Nc) as Ns.
    assert (Vals : forall v, v $"PROJECT_BINARY_DIR" = Some B -> v $"CMAKE_SYSTEM_NAME" = Some y ->
       val (over b v) $"${CMAKE_SYSTEM_NAME}" = y /\ val (over b v) $"${name}Rule" = n ++ $"Rule"
       /\ val (over b v) $"${name}Rule.cpp" = n ++ $"Rule.cpp" /\ val (over b v) $"${PROJECT_BINARY_DIR}/rules.dl" = B ++ $"/rules.dl").
    { intros v P Y. repeat split.
      - change (match v $"CMAKE_SYSTEM_NAME" with Some x => x | None => [] end ++ [] = y). rewrite Y. apply app_nil_r.
      - change (match v $"PROJECT_BINARY_DIR" with Some x => x | None => [] end ++ $"/rules.dl" = B ++ $"/rules.dl"). rewrite P. reflexivity. }
    change (instance b rule_body) with (map (fun c => cmd (c_name c) (map (inst b) (c_args c))) rule_body). unfold rule_body. cbn [map c_name c_args cmd].
    (* the first condition *)
    assert (C : forall v p, v $"PROJECT_BINARY_DIR" = Some B -> v $"CMAKE_SYSTEM_NAME" = Some y -> forallb (fun c => isalpha c || isdigit c) p = true ->
       forallb (fun c => negb (ascii_eqb c "$"%char)) p = true -> 
       exists r, condition F v (values v (map (inst b) [u $"${CMAKE_SYSTEM_NAME}"; u $"MATCHES"; q p])) = Some r).
    { intros v p P Y Hp Hq. destruct (Vals v P Y) as (V1 & _). cbn [map].
      rewrite (values_iu _ _ _ y) by assumption. rewrite (values_iu _ _ _ $"MATCHES") by side. rewrite (values_iq _ _ _ p) by (apply val_plain; exact Hq).
      cbn [values flat_map condition]. change (str_eqb $"MATCHES" $"MATCHES") with true. rewrite Hp. cbn [andb]. eexists. reflexivity. }
    assert (Find : forall k s, s_macros s = rules_macros -> existsb (str_eqb k) [$"add_rule_category_directory"; $"build_dynamic_rules"; $"build_dynamic_rule"] = false ->
       find (fun m => str_eqb (fst m) k) (s_macros s) = None).
    { intros k t E K. rewrite E. cbn [rules_macros find fst]. cbn [existsb] in K. 
      assert (Sym : forall a c, str_eqb a c = str_eqb c a).
      { intros a c. destruct (str_eqb c a) eqn:X; [apply str_eqb_eq in X; subst; apply str_eqb_refl|apply str_eqb_neq in X; apply str_eqb_neq; congruence]. }
      apply Bool.orb_false_iff in K as [K1 K]. apply Bool.orb_false_iff in K as [K2 K]. apply Bool.orb_false_iff in K as [K3 _].
      rewrite (Sym _ k), K1, (Sym _ k), K2, (Sym _ k), K3. reflexivity. }
    (* behind the first condition *)
    set (t0 := {| t_name := n ++ $"Rule"; t_kind := Shared; t_sources := [join dir (n ++ $"Rule.cpp")]; t_properties := []; t_links := [] |}).
    assert (Main : forall v, v $"PROJECT_BINARY_DIR" = Some B -> v $"CMAKE_SYSTEM_NAME" = Some y -> agree [$"CMAKE_SHARED_LINKER_FLAGS"] v (s_vars s) ->
      exists extra, steps dir (map (fun c => cmd (c_name c) (map (inst b) (c_args c))) (skipn 3 rule_body)) (with_vars v s)
                      (with_vars v (with_targets (s_targets s ++ [library B dir n extra]) s))).
    { intros v P Y A. destruct (Vals v P Y) as (V1 & V2 & V3 & V4). unfold rule_body. cbn [map c_name c_args cmd skipn].
      destruct (C v $"FreeBSD" P Y eq_refl eq_refl) as (r & Cr).
      exists (if r then elements [] (val (over b v) $"${CLANG_LIBRARIES}") ++ elements [] (val (over b v) $"${REQ_LLVM_LIBRARIES}") ++ [$"OCLintRuleSet"] else []).
      assert (W : forall l, values v (inst b (u $"${name}Rule") :: l) = (false, n ++ $"Rule") :: values v l).
      { intros l. apply values_iu; [exact V2|semi|full]. }
      assert (W3 : forall l, values v (inst b (u $"${name}Rule.cpp") :: l) = (false, n ++ $"Rule.cpp") :: values v l) by (intros l; apply values_iu; [exact V3|semi|full]).
      assert (W4 : forall l, values v (inst b (u $"${PROJECT_BINARY_DIR}/rules.dl") :: l) = (false, B ++ $"/rules.dl") :: values v l) by (intros l; apply values_iu; [exact V4|semi|full]).
      assert (FM : forall k, existsb (str_eqb k) [$"add_rule_category_directory"; $"build_dynamic_rules"; $"build_dynamic_rule"] = false -> no_macro k s).
      { intros k K. apply Find; [exact M|exact K]. }
      eapply step_add; [apply FM; reflexivity|exact Fr|left; split; [reflexivity|split; [|reflexivity]]|].
      { unfold plain_values. cbn [c_args cmd]. rewrite W, (values_iu _ _ _ $"SHARED") by side.
        rewrite W3. reflexivity. }
      eapply step_properties; [reflexivity|apply FM; reflexivity|exact Fr| | |].
      { unfold plain_values. cbn [c_args cmd]. rewrite W.
        rewrite (values_iu _ _ _ $"PROPERTIES"), (values_iu _ _ _ $"LIBRARY_OUTPUT_DIRECTORY"), W4, (values_iu _ _ _ $"RUNTIME_OUTPUT_DIRECTORY"), W4
          by side. reflexivity. }
      { reflexivity. }
      eapply step_links; [reflexivity|apply FM; reflexivity|exact Fr| |].
      { unfold plain_values. cbn [c_args cmd]. rewrite W, (values_iu _ _ _ $"OCLintAbstractRule") by side. reflexivity. }
      eapply step_links; [reflexivity|apply FM; reflexivity|exact Fr| |].
      { unfold plain_values. cbn [c_args cmd]. rewrite W, (values_iu _ _ _ $"clangASTMatchers") by side. reflexivity. }
      eapply step_links; [reflexivity|apply FM; reflexivity|exact Fr| |].
      { unfold plain_values. cbn [c_args cmd]. rewrite W.
        rewrite (values_iu _ _ _ $"OCLintMetric"), (values_iu _ _ _ $"OCLintHelper"), (values_iu _ _ _ $"OCLintUtil"), (values_iu _ _ _ $"OCLintCore") by side. reflexivity. }
      eapply steps_if; [reflexivity|reflexivity|exact Cr| |apply steps_nil]. destruct r; cbn [i_then i_else]; [|apply steps_nil].
      eapply step_links; [reflexivity|apply FM; reflexivity|exact Fr| |apply steps_nil].
      unfold plain_values. cbn [c_args cmd]. rewrite W.
      cbn [map snd]. do 2 rewrite values_il. rewrite (values_iu _ _ _ $"OCLintRuleSet") by side. reflexivity. }
    destruct (C (s_vars s) $"Darwin" PB Sy eq_refl eq_refl) as (r & Cr).
    set (v := if r then assign (s_vars s) $"CMAKE_SHARED_LINKER_FLAGS" (Some $"-undefined dynamic_lookup") else s_vars s).
    assert (A : agree [$"CMAKE_SHARED_LINKER_FLAGS"] v (s_vars s)).
    { intros k K. subst v. destruct r; [|reflexivity]. unfold assign. replace (str_eqb k _) with false; [reflexivity|]. symmetry. apply str_eqb_neq. intros ->. apply K. left. reflexivity. }
    destruct (Main v) as (extra & R); [rewrite A; [exact PB|intros [E|[]]; discriminate]|rewrite A; [exact Sy|intros [E|[]]; discriminate]|exact A|].
    exists extra. eexists. split; [|exists v; split; [reflexivity|exact A]].
    eapply steps_if; [reflexivity|reflexivity|exact Cr| |exact R]. subst v. destruct r; cbn [i_then i_else].
    - eapply steps_builtin; [reflexivity|apply Find; [exact M|reflexivity]| |apply steps_nil].
      rewrite (builtin_set _ _ _ _ _ $"CMAKE_SHARED_LINKER_FLAGS" $"-undefined dynamic_lookup" []); [reflexivity|reflexivity| |reflexivity].
      unfold plain_values. cbn [c_args cmd]. rewrite (values_iu _ _ _ $"CMAKE_SHARED_LINKER_FLAGS") by side.
      rewrite (values_iq _ _ _ $"-undefined dynamic_lookup") by plain_val. reflexivity.
    - replace (with_vars (s_vars s) s) with s by (destruct s; reflexivity). apply steps_nil.
  Qed.

  (** The variables that matter survive, and macros and tests. *)
  Definition core : list str := [$"PROJECT_BINARY_DIR"; $"CMAKE_SYSTEM_NAME"; current].
  Definition grows (s : cstate) (ts : list target) (ds : list str) (s' : cstate) : Prop :=
    s_targets s' = s_targets s ++ ts /\ s_dirs s' = s_dirs s ++ ds /\ s_macros s' = s_macros s /\ s_tests s' = s_tests s
    /\ forall k, In k core -> s_vars s' k = s_vars s k.
  Lemma grows_setting : forall s ts ds s', setting s -> grows s ts ds s' -> setting s'.
  Proof.
    intros s ts ds s' (M & P & y & Y & N & X) (_ & _ & M' & _ & V). split; [congruence|]. split; [rewrite V by (cbn; auto); exact P|].
    exists y. split; [rewrite V by (cbn; auto); exact Y|]. auto.
  Qed.
  Lemma grows_trans : forall s t1 d1 s1 t2 d2 s2, grows s t1 d1 s1 -> grows s1 t2 d2 s2 -> grows s (t1 ++ t2) (d1 ++ d2) s2.
  Proof.
    intros s t1 d1 s1 t2 d2 s2 (A & B1 & C & D & E) (A' & B' & C' & D' & E').
    repeat split; try congruence; [rewrite A', A, app_assoc; reflexivity|rewrite B', B1, app_assoc; reflexivity|].
    intros k K. rewrite E', E by exact K. reflexivity.
  Qed.
  Lemma grows_refl : forall s, grows s [] [] s.
  Proof. intros s. repeat split; auto; rewrite app_nil_r; reflexivity. Qed.

  Definition libraries (dir : str) (ns : list str) (ts : list target) : Prop := Forall2 (fun n t => exists extra, t = library B dir n extra) ns ts.
  Lemma libraries_names : forall dir ns ts, libraries dir ns ts -> map t_name ts = map (fun n => n ++ $"Rule") ns.
  Proof. intros dir ns ts L. induction L as [|n t ns ts (e & ->) _ IH]; [reflexivity|]. cbn [map]. rewrite IH. reflexivity. Qed.
  Definition fresh_names (ns : list str) (s : cstate) : Prop := NoDup (map t_name (s_targets s) ++ map (fun n => n ++ $"Rule") ns).
  Lemma is_target_not : forall n l, ~ In n (map t_name l) -> is_target n l = false.
  Proof.
    intros n l H. unfold is_target. destruct (existsb _ l) eqn:E; [|reflexivity]. apply existsb_exists in E as (t & I & E).
    apply str_eqb_eq in E. exfalso. apply H. rewrite <- E. apply in_map, I.
  Qed.
  Lemma nodup_step : forall (l : list str) x r, NoDup (l ++ x :: r) -> ~ In x l /\ NoDup ((l ++ [x]) ++ r).
  Proof.
    intros l x r N. split; [|rewrite <- app_assoc; exact N]. apply NoDup_remove_2 in N. intros I. apply N, in_or_app. left. exact I.
  Qed.
  Lemma map_inst : forall b l, instance b l = map (fun c => cmd (c_name c) (map (inst b) (c_args c))) l.
  Proof. reflexivity. Qed.

  (** Every class of a group. *)
  Lemma rules_loop : forall dir ns s, Forall name_like ns -> setting s -> fresh_names ns s ->
    exists ts s', loops F binary config dir [cmd $"build_dynamic_rule" [u $"${it}"]] $"it" ns s s' /\ grows s ts [] s' /\ libraries dir ns ts.
  Proof.
    intros dir ns. induction ns as [|n ns IH]; intros s L Se Fr.
    - exists [], s. split; [constructor|]. split; [apply grows_refl|constructor].
    - inversion_clear L as [|? ? Ln Ls]. unfold fresh_names in Fr. cbn [map] in Fr. destruct (nodup_step _ _ _ Fr) as [Fn Fr'].
      set (s0 := with_vars (assign (s_vars s) $"it" (Some n)) s).
      assert (G0 : grows s [] [] s0).
      { repeat split; cbn [s0 with_vars s_targets s_dirs s_macros s_tests s_vars]; try (rewrite app_nil_r; reflexivity).
        intros k K. unfold assign. replace (str_eqb k $"it") with false; [reflexivity|]. cbn in K. destruct K as [<-|[<-|[<-|[]]]]; reflexivity. }
      destruct (rule_library dir n s0 Ln (grows_setting _ _ _ _ Se G0) (is_target_not _ _ Fn)) as (extra & s1 & R1 & v & -> & Av).
      set (s1 := with_vars v (with_targets (s_targets s0 ++ [library B dir n extra]) s0)) in *.
      assert (G1 : grows s0 [library B dir n extra] [] s1).
      { repeat split; cbn [s1 with_vars with_targets s_targets s_dirs s_macros s_tests s_vars]; try (rewrite app_nil_r; reflexivity).
        intros k K. apply Av. intros [<-|[]]. cbn in K. destruct K as [E|[E|[E|[]]]]; discriminate. }
      pose proof (grows_trans _ _ _ _ _ _ _ G0 G1) as G. cbn [app] in G.
      destruct (IH s1 Ls (grows_setting _ _ _ _ Se G)) as (ts & s2 & R2 & G2 & L2).
      { unfold fresh_names. rewrite (proj1 G), map_app. exact Fr'. }
      exists (library B dir n extra :: ts), s2. split; [|split].
      + eapply loops_cons; [|exact R2].
        eapply (steps_call _ _ _ dir _ [] [$"name"] rule_body); [reflexivity| | | |apply steps_nil].
        * replace (s_macros _) with rules_macros by (symmetry; apply Se). reflexivity.
        * unfold plain_values. cbn [c_args cmd]. rewrite (values_u _ _ n); [cbn; auto| |apply names_no_semicolon, Ln|apply Ln].
          change (match assign (s_vars s) $"it" (Some n) $"it" with Some x => x | None => [] end ++ [] = n). unfold assign. rewrite str_eqb_refl. apply app_nil_r.
        * unfold plain_values. cbn [c_args cmd]. rewrite (values_u _ _ n); [exact R1| |apply names_no_semicolon, Ln|apply Ln].
          change (match assign (s_vars s) $"it" (Some n) $"it" with Some x => x | None => [] end ++ [] = n). unfold assign. rewrite str_eqb_refl. apply app_nil_r.
      + exact (grows_trans _ _ _ _ _ _ _ G G2).
      + constructor; [eexists; reflexivity|exact L2].
  Qed.
  Definition group := (str * list str)%type.                       (* a variable and the classes it lists *)
  Definition group_ok (g : group) : Prop := name_like (fst g) /\ ~ In (fst g) core /\ snd g <> [] /\ Forall name_like (snd g)
    /\ Forall (fun n => n <> $"CACHE" /\ n <> $"PARENT_SCOPE") (snd g).
  Definition group_commands (g : group) : list command := [set_command (fst g) (snd g); rules_command (fst g)].
  Lemma group_run : forall dir g rest s, group_ok g -> setting s -> fresh_names (snd g) s ->
    exists ts s', grows s ts [] s' /\ libraries dir (snd g) ts /\ forall s2, steps dir rest s' s2 -> steps dir (group_commands g ++ rest) s s2.
  Proof.
    intros dir [x ns] rest s (Lx & Cx & E & L & Nk) Se Fr. cbn [fst snd] in *.
    assert (Ns : Forall (fun n => no_semicolon n /\ n <> []) ns).
    { eapply Forall_impl; [|exact L]. intros n N. split; [apply names_no_semicolon, N|apply N]. }
    set (s0 := with_vars (assign (s_vars s) x (Some (list_of ns))) s).
    assert (G0 : grows s [] [] s0).
    { repeat split; cbn [s0 with_vars s_targets s_dirs s_macros s_tests s_vars]; try (rewrite app_nil_r; reflexivity).
      intros k K. unfold assign. replace (str_eqb k x) with false; [reflexivity|]. symmetry. apply str_eqb_neq. intros ->. contradiction. }
    destruct (rules_loop dir ns s0 L (grows_setting _ _ _ _ Se G0) Fr) as (ts & s1 & R1 & G1 & L1).
    pose proof (grows_trans _ _ _ _ _ _ _ G0 G1) as G. cbn [app] in G.
    set (s2 := with_vars (assign (s_vars s1) $"it" (s_vars s0 $"it")) s1).
    exists ts, s2. split; [|split; [exact L1|]].
    { destruct G as (A & Ad & M & T & V). repeat split; cbn [s2 with_vars s_targets s_dirs s_macros s_tests s_vars]; auto.
      intros k K. rewrite <- V by exact K. unfold assign. replace (str_eqb k $"it") with false; [reflexivity|]. cbn in K. destruct K as [<-|[<-|[<-|[]]]]; reflexivity. }
    intros s3 R3. unfold group_commands. cbn [fst snd app].
    eapply steps_builtin; [reflexivity|replace (s_macros _) with rules_macros by (symmetry; apply Se); reflexivity| |].
    { destruct ns as [|n ns]; [congruence|]. rewrite (builtin_set _ _ _ _ _ x n ns); [reflexivity|reflexivity| |].
      - cbn [c_args set_command]. change (bare x :: map bare (n :: ns)) with (map bare (x :: n :: ns)). apply values_bares. constructor; [|exact Ns].
        split; [apply names_no_semicolon, Lx|apply Lx].
      - destruct (existsb _ (n :: ns)) eqn:X; [|reflexivity]. apply existsb_exists in X as (m & I & X). rewrite Forall_forall in Nk. destruct (Nk m I) as [K1 K2].
        apply Bool.orb_true_iff in X as [X|X]; apply str_eqb_eq in X; contradiction. }
    assert (A : plain_values (s_vars s0) (c_args (rules_command x)) = [list_of ns]).
    { unfold plain_values, values. cbn [c_args rules_command flat_map a_quoted a_text map snd app expand]. cbn [s0 with_vars s_vars]. unfold assign. rewrite str_eqb_refl, app_nil_r. reflexivity. }
    eapply (steps_call _ _ _ dir _ rest [$"rules"] rules_body); [reflexivity| | | |exact R3].
    { replace (s_macros _) with rules_macros by (symmetry; apply Se). reflexivity. }
    { fold s0. rewrite A. auto. }
    fold s0. rewrite A.
    eapply (steps_foreach _ _ _ dir _ _ [cmd $"build_dynamic_rule" [u $"${it}"]] [] $"it" ns); [reflexivity|reflexivity| |exact R1|apply steps_nil].
    set (b := bindings [$"rules"] [list_of ns]). change (map snd (values (s_vars s0) [inst b (u $"it"); inst b (u $"${rules}")]) = $"it" :: ns).
    rewrite (values_iu _ _ _ $"it") by side. cbn [map snd]. rewrite values_il. cbn [values flat_map map]. rewrite app_nil_r. f_equal.
    change (elements [] (list_of ns ++ []) = ns). rewrite app_nil_r. apply elements_list, Ns.
  Qed.

  Definition classes (gs : list group) : list str := flat_map snd gs.
  Lemma fresh_app : forall a b ts ds s s' dir, fresh_names (a ++ b) s -> grows s ts ds s' -> libraries dir a ts -> fresh_names b s'.
  Proof.
    intros a b ts ds s s' dir Fr G L. unfold fresh_names in *. rewrite (proj1 G), map_app, (libraries_names _ _ _ L).
    rewrite map_app, app_assoc in Fr. exact Fr.
  Qed.
  Lemma nodup_first : forall l r : list str, NoDup (l ++ r) -> NoDup l.
  Proof.
    intros l r. induction l as [|x l IH]; [constructor|]. cbn [app]. intros N. inversion_clear N as [|? ? I M].
    constructor; [intros J; apply I, in_or_app; left; exact J|apply IH, M].
  Qed.
  Lemma fresh_first : forall a b s, fresh_names (a ++ b) s -> fresh_names a s.
  Proof.
    intros a b s Fr. unfold fresh_names in *. rewrite map_app, app_assoc in Fr. exact (nodup_first _ _ Fr).
  Qed.
  Lemma groups_run : forall dir gs s, Forall group_ok gs -> setting s -> fresh_names (classes gs) s ->
    exists ts s', grows s ts [] s' /\ libraries dir (classes gs) ts /\ steps dir (flat_map group_commands gs) s s'.
  Proof.
    intros dir gs. induction gs as [|g gs IH]; intros s O Se Fr.
    - exists [], s. split; [apply grows_refl|]. split; [constructor|apply steps_nil].
    - inversion_clear O as [|? ? Og Os]. change (classes (g :: gs)) with (snd g ++ classes gs) in *.
      destruct (group_run dir g (flat_map group_commands gs) s Og Se (fresh_first _ _ _ Fr)) as (t1 & s1 & G1 & L1 & R1).
      destruct (IH s1 Os (grows_setting _ _ _ _ Se G1) (fresh_app _ _ _ _ _ _ _ Fr G1 L1)) as (t2 & s2 & G2 & L2 & R2).
      exists (t1 ++ t2), s2. split; [exact (grows_trans _ _ _ _ _ _ _ G1 G2)|]. split; [apply Forall2_app; assumption|]. apply R1, R2.
  Qed.

  Lemma join_name : forall dir c, name_like c -> join dir c = dir ++ $"/" ++ c.
  Proof. intros dir [|x c] [N Fc]; [congruence|]. inversion_clear Fc as [|? ? X _]. cbn [join]. replace (ascii_eqb x "/") with false; [reflexivity|]. symmetry. destruct (ascii_eqb x "/") eqn:E; [|reflexivity]. apply ascii_eqb_eq in E. subst x. discriminate. Qed.
  (** A category with a list. *)
  Definition category := (str * list group)%type.
  Definition list_of_category (dir c : str) : str := dir ++ $"/" ++ c ++ $"/CMakeLists.txt".
  Definition category_ok (dir : str) (d : category) : Prop :=
    name_like (fst d) /\ Forall group_ok (snd d)
    /\ exists text, F (list_of_category dir (fst d)) = Some text /\ commands_in text = Some (flat_map group_commands (snd d)).
  Lemma category_run : forall dir d rest s, no_semicolon dir -> category_ok dir d -> setting s -> s_vars s current = Some dir ->
    fresh_names (classes (snd d)) s -> ~ In (dir ++ $"/" ++ fst d) (s_dirs s) ->
    exists ts s', grows s ts [dir ++ $"/" ++ fst d] s' /\ libraries (dir ++ $"/" ++ fst d) (classes (snd d)) ts
      /\ forall s2, steps dir rest s' s2 -> steps dir (category_call (fst d) :: rest) s s2.
  Proof.
    intros dir [c gs] rest s Nd (Lc & Og & text & T & C) Se Cu Fr Id. cbn [fst snd] in *. set (sub := dir ++ $"/" ++ c) in *.
    pose proof (names_no_semicolon c (proj2 Lc)) as Nc.
    set (s0 := with_dir sub (with_vars (assign (s_vars s) current (Some sub)) s)).
    assert (Ks : forall k, In k [$"PROJECT_BINARY_DIR"; $"CMAKE_SYSTEM_NAME"] -> s_vars s0 k = s_vars s k).
    { intros k K. cbn in K. destruct K as [<-|[<-|[]]]; reflexivity. }
    assert (Se0 : setting s0).
    { destruct Se as (M & P & y & Y & N & X). split; [exact M|]. split; [exact P|]. exists y. auto. }
    destruct (groups_run sub gs s0 Og Se0 Fr) as (ts & s1 & G1 & L1 & R1).
    exists ts, (with_vars (s_vars s) s1). split; [|split; [exact L1|]].
    { destruct G1 as (A & D & M & Te & V). repeat split; cbn [with_vars s_targets s_dirs s_macros s_tests s_vars]; auto. rewrite D. cbn [s0 with_dir s_dirs with_vars]. rewrite app_nil_r. reflexivity. }
    intros s2 R2.
    assert (A : plain_values (s_vars s) (c_args (category_call c)) = [c]).
    { apply (values_bares (s_vars s) [c]). constructor; [split; [exact Nc|apply Lc]|constructor]. }
    eapply (steps_call _ _ _ dir _ rest [$"category"] category_body); [reflexivity| | | |exact R2].
    { replace (s_macros _) with rules_macros by (symmetry; apply Se). reflexivity. }
    { rewrite A. auto. }
    rewrite A. set (b := bindings [$"category"] [c]).
    assert (V : val (over b (s_vars s)) $"${CMAKE_CURRENT_SOURCE_DIR}/${category}/CMakeLists.txt" = list_of_category dir c).
    { change (match s_vars s current with Some x => x | None => [] end ++ $"/" ++ c ++ $"/CMakeLists.txt" = list_of_category dir c). rewrite Cu. reflexivity. }
    eapply (steps_if _ _ _ dir _ _ _ true); [reflexivity|reflexivity| | |apply steps_nil].
    { match goal with |- condition F ?v _ = _ => change (condition F v (values v [inst b (u $"EXISTS"); inst b (u $"${CMAKE_CURRENT_SOURCE_DIR}/${category}/CMakeLists.txt")]) = Some true) end.
      rewrite (values_iu _ _ _ $"EXISTS") by side. rewrite (values_iu _ _ _ _ _ V).
      2:{ unfold list_of_category. semi. }
      2:{ unfold list_of_category. intros E. apply app_eq_nil in E as [_ E]. discriminate. }
      unfold values. cbn [flat_map condition]. change (str_eqb $"EXISTS" $"EXISTS") with true. unfold isfile. rewrite T. reflexivity. }
    cbn [i_then].
    eapply (steps_subdirectory _ _ _ dir _ [] c text); [reflexivity| | | |exact C| |].
    - cbn [c_args]. unfold plain_values. change (map snd (values (s_vars s) [inst b (u $"${category}")]) = [c]).
      rewrite (values_iu _ _ _ c); [reflexivity| |exact Nc|apply Lc]. change (c ++ [] = c). apply app_nil_r.
    - rewrite (join_name dir c Lc). replace (join (dir ++ $"/" ++ c) $"CMakeLists.txt") with (list_of_category dir c); [exact T|].
      unfold list_of_category. change (join (dir ++ $"/" ++ c) $"CMakeLists.txt") with ((dir ++ $"/" ++ c) ++ $"/CMakeLists.txt"). rewrite <- !app_assoc. reflexivity.
    - rewrite (join_name dir c Lc). fold sub. destruct (existsb _ _) eqn:E; [|reflexivity]. apply existsb_exists in E as (x & I & E). apply str_eqb_eq in E. subst x. contradiction.
    - rewrite (join_name dir c Lc). fold sub. exact R1.
    - apply steps_nil.
  Qed.

  Definition tree_classes (D : list category) : list str := flat_map (fun d => classes (snd d)) D.
  Definition tree_libraries (dir : str) (D : list category) (ts : list target) : Prop :=
    exists l, ts = concat l /\ Forall2 (fun d t => libraries (dir ++ $"/" ++ fst d) (classes (snd d)) t) D l.
  Lemma categories_run : forall dir D s, no_semicolon dir -> Forall (category_ok dir) D -> setting s -> s_vars s current = Some dir ->
    fresh_names (tree_classes D) s -> NoDup (s_dirs s ++ map (fun d => dir ++ $"/" ++ fst d) D) ->
    exists ts s', grows s ts (map (fun d => dir ++ $"/" ++ fst d) D) s' /\ tree_libraries dir D ts
      /\ steps dir (map category_call (map fst D)) s s'.
  Proof.
    intros dir D. induction D as [|d D IH]; intros s Nd O Se Cu Fr Di.
    - exists [], s. split; [apply grows_refl|]. split; [exists []; split; [reflexivity|constructor]|apply steps_nil].
    - inversion_clear O as [|? ? Od Os]. change (tree_classes (d :: D)) with (classes (snd d) ++ tree_classes D) in *. cbn [map] in *.
      destruct (nodup_step _ _ _ Di) as [Dd Di'].
      destruct (category_run dir d (map category_call (map fst D)) s Nd Od Se Cu (fresh_first _ _ _ Fr) Dd) as (t1 & s1 & G1 & L1 & R1).
      destruct (IH s1 Nd Os (grows_setting _ _ _ _ Se G1)) as (t2 & s2 & G2 & (l & -> & L2) & R2).
      { destruct G1 as (_ & _ & _ & _ & V). rewrite V by (cbn; auto). exact Cu. }
      { exact (fresh_app _ _ _ _ _ _ _ Fr G1 L1). }
      { rewrite (proj1 (proj2 G1)). exact Di'. }
      exists (t1 ++ concat l), s2. split; [exact (grows_trans _ _ _ _ _ _ _ G1 G2)|].
      split; [exists (t1 :: l); split; [reflexivity|constructor; assumption]|]. apply R1, R2.
  Qed.
End Rules.

(** ** The lists above *)
Definition root_commands : list command :=
  [cmd $"cmake_minimum_required" [u $"VERSION"; u $"3.20"]; cmd $"project" [u $"OCLINT_RULES"];
   cmd $"set" [u $"CMAKE_MODULE_PATH"; u $"${CMAKE_MODULE_PATH}"; q $"${CMAKE_CURRENT_SOURCE_DIR}/../oclint-core/cmake"];
   cmd $"include" [u $"OCLintConfig"];
   cmd $"include_directories" [u $"${OCLINT_SOURCE_DIR}/include"; u $"${OCLINT_METRICS_SOURCE_DIR}/include"; u $"${OCLINT_RULES_SOURCE_DIR}/include"; u $"${OCLINT_RULES_SOURCE_DIR}"];
   cmd $"link_directories" [u $"${OCLINT_BUILD_DIR}/lib"; u $"${OCLINT_METRICS_BUILD_DIR}/lib"];
   cmd $"add_subdirectory" [u $"lib"];
   cmd $"if" [u $"TEST_BUILD"];
   cmd $"include_directories" [u $"${OCLINT_RULES_SOURCE_DIR}/test/headers"];
   cmd $"add_subdirectory" [u $"test"];
   cmd $"else" [u $"TEST_BUILD"];
   cmd $"add_subdirectory" [u $"rules"];
   cmd $"endif" []].
Definition lib_commands : list command :=
  [cmd $"add_subdirectory" [u $"helper"]; cmd $"add_subdirectory" [u $"util"];
   cmd $"set" [u $"AbstractSource"; u $"AbstractASTMatcherRule.cpp"; u $"AbstractASTRuleBase.cpp"; u $"AbstractSourceCodeReaderRule.cpp"];
   cmd $"add_library" [u $"OCLintAbstractRule"; u $"${AbstractSource}"]].
Definition helper_commands : list command :=
  [cmd $"add_library" [u $"OCLintHelper"; u $"AttributeHelper.cpp"; u $"EnforceHelper.cpp"; u $"SuppressHelper.cpp"]].
Definition util_commands : list command := [cmd $"add_library" [u $"OCLintUtil"; u $"ASTUtil.cpp"; u $"StdUtil.cpp"]].
Lemma upper_lists :
  commands_in (text_of rules_lists $"CMakeLists.txt") = Some root_commands
  /\ commands_in (text_of rules_lists $"lib/CMakeLists.txt") = Some lib_commands
  /\ commands_in (text_of rules_lists $"lib/helper/CMakeLists.txt") = Some helper_commands
  /\ commands_in (text_of rules_lists $"lib/util/CMakeLists.txt") = Some util_commands.
Proof. repeat split; vm_compute; reflexivity. Qed.
Definition static_library (dir n : str) (sources : list str) : target :=
  {| t_name := n; t_kind := Static; t_sources := map (join dir) sources; t_properties := []; t_links := [] |}.
Definition statics (project : str) : list target :=
  [static_library (project ++ $"/lib/helper") $"OCLintHelper" [$"AttributeHelper.cpp"; $"EnforceHelper.cpp"; $"SuppressHelper.cpp"];
   static_library (project ++ $"/lib/util") $"OCLintUtil" [$"ASTUtil.cpp"; $"StdUtil.cpp"];
   static_library (project ++ $"/lib") $"OCLintAbstractRule" [$"AbstractASTMatcherRule.cpp"; $"AbstractASTRuleBase.cpp"; $"AbstractSourceCodeReaderRule.cpp"]].

Lemma under_eqb : forall p a b : str, str_eqb (p ++ a) (p ++ b) = str_eqb a b.
Proof.
  intros p a b. destruct (str_eqb a b) eqn:E; [apply str_eqb_eq in E; subst; apply str_eqb_refl|].
  apply str_eqb_neq in E. apply str_eqb_neq. intros H. apply app_inv_head in H. contradiction.
Qed.
Lemma under_any : forall p a l, existsb (str_eqb (p ++ a)) (map (app p) l) = existsb (str_eqb a) l.
Proof. intros p a l. induction l as [|b l IH]; [reflexivity|]. cbn [map existsb]. rewrite under_eqb, IH. reflexivity. Qed.

Lemma values_ulit : forall w t r, forallb (fun c => negb (ascii_eqb c "$"%char)) t = true -> forallb (fun c => negb (ascii_eqb c ";"%char)) t = true -> t <> [] ->
  values w (u t :: r) = (false, t) :: values w r.
Proof. intros w t r A B N. apply values_u; [apply val_plain, A|apply semicolon_check, B|exact N]. Qed.
Section Root.
  Variables (F : files) (binary : str) (config : variables -> option variables) (project : str).
  Notation steps := (steps F binary config).
  Hypothesis lists : forall p, In p [$"lib/CMakeLists.txt"; $"lib/helper/CMakeLists.txt"; $"lib/util/CMakeLists.txt"] ->
    F (project ++ $"/" ++ p) = Some (text_of rules_lists p).

  Lemma file_under : forall d, join (project ++ d) $"CMakeLists.txt" = project ++ (d ++ $"/CMakeLists.txt").
  Proof. intros d. change (join (project ++ d) $"CMakeLists.txt") with ((project ++ d) ++ $"/CMakeLists.txt"). rewrite <- app_assoc. reflexivity. Qed.
  Lemma joined : forall d n, name_like n -> join (project ++ d) n = project ++ (d ++ $"/" ++ n).
  Proof. intros d n N. rewrite join_name by exact N. rewrite <- app_assoc. reflexivity. Qed.

  Lemma step_subdirectory : forall d n rest text l s rs s1 s2, name_like n ->
    s_dirs s = map (app project) rs -> existsb (str_eqb (d ++ $"/" ++ n)) rs = false ->
    F (project ++ (d ++ $"/" ++ n) ++ $"/CMakeLists.txt") = Some text -> commands_in text = Some l ->
    steps (project ++ (d ++ $"/" ++ n)) l
      (with_dir (project ++ (d ++ $"/" ++ n)) (with_vars (assign (s_vars s) current (Some (project ++ (d ++ $"/" ++ n)))) s)) s1 ->
    steps (project ++ d) rest (with_vars (s_vars s) s1) s2 ->
    steps (project ++ d) (cmd $"add_subdirectory" [u n] :: rest) s s2.
  Proof.
    intros d n rest text l s rs s1 s2 N D E T C R1 R2.
    eapply (steps_subdirectory _ _ _ _ _ rest n text l); [reflexivity| | | |exact C| |exact R2].
    - unfold plain_values. cbn [c_args cmd]. rewrite (values_u _ _ n); [reflexivity| |apply names_no_semicolon, N|apply N].
      unfold val, segs. rewrite (segments_plain n (proj2 N)). apply expand_lit.
    - rewrite joined by exact N. rewrite file_under. exact T.
    - rewrite joined by exact N. rewrite D, under_any. exact E.
    - rewrite joined by exact N. exact R1.
  Qed.
  Lemma step_static : forall dir n k srcs args rest s s2, s_macros s = [] -> is_target n (s_targets s) = false ->
    plain_values (s_vars s) args = n :: k :: srcs ->
    existsb (str_eqb k) [$"SHARED"; $"STATIC"; $"MODULE"; $"OBJECT"; $"INTERFACE"; $"ALIAS"; $"UNKNOWN"] = false ->
    steps dir rest (with_targets (s_targets s ++ [static_library dir n (k :: srcs)]) s) s2 ->
    steps dir (cmd $"add_library" args :: rest) s s2.
  Proof.
    intros dir n k srcs args rest s s2 M I A K R. eapply steps_builtin; [reflexivity|rewrite M; reflexivity| |exact R].
    erewrite builtin_static; [|reflexivity|exact A|exact K]. rewrite add_last by exact I. reflexivity.
  Qed.

  (** The static libraries. *)
  Lemma lib_run : forall rest v, exists s1,
    s_targets s1 = statics project /\ s_dirs s1 = map (app project) [$"/lib"; $"/lib/helper"; $"/lib/util"] /\ s_macros s1 = [] /\ s_tests s1 = []
    /\ s_vars s1 = v
    /\ forall s2, steps project rest s1 s2 ->
       steps project (cmd $"add_subdirectory" [u $"lib"] :: rest) {| s_vars := v; s_macros := []; s_targets := []; s_tests := []; s_dirs := [] |} s2.
  Proof.
    intros rest v. destruct upper_lists as (_ & Cl & Ch & Cu).
    pose proof (lists $"lib/CMakeLists.txt" (or_introl eq_refl)) as Tl.
    pose proof (lists $"lib/helper/CMakeLists.txt" (or_intror (or_introl eq_refl))) as Th.
    pose proof (lists $"lib/util/CMakeLists.txt" (or_intror (or_intror (or_introl eq_refl)))) as Tu.
    revert Tl Th Tu Cl Ch Cu. generalize (text_of rules_lists $"lib/CMakeLists.txt") (text_of rules_lists $"lib/helper/CMakeLists.txt") (text_of rules_lists $"lib/util/CMakeLists.txt").
    intros tl th tu Tl Th Tu Cl Ch Cu.
    assert (N : forall n, forallb name_char n = true -> n <> [] -> name_like n) by (intros n H X; split; [exact X|apply checked, H]).
    eexists. repeat split; cycle 5.
    { intros s2 R. rewrite <- (app_nil_r project) at 1.
      eapply (step_subdirectory [] $"lib" rest _ _ _ []); [apply N; [reflexivity|discriminate]|reflexivity|reflexivity|exact Tl|exact Cl| |rewrite app_nil_r; exact R].
      unfold lib_commands.
      eapply (step_subdirectory $"/lib" $"helper" _ _ _ _ [$"/lib"]); [apply N; [reflexivity|discriminate]|reflexivity|reflexivity|exact Th|exact Ch| |].
      { unfold helper_commands. eapply (step_static _ $"OCLintHelper"); [reflexivity|reflexivity| | |apply steps_nil].
        - unfold plain_values. rewrite !values_ulit by (reflexivity || discriminate). reflexivity.
        - reflexivity. }
      eapply (step_subdirectory $"/lib" $"util" _ _ _ _ [$"/lib"; $"/lib/helper"]); [apply N; [reflexivity|discriminate]|reflexivity|reflexivity|exact Tu|exact Cu| |].
      { unfold util_commands. eapply (step_static _ $"OCLintUtil"); [reflexivity|reflexivity| | |apply steps_nil].
        - unfold plain_values. rewrite !values_ulit by (reflexivity || discriminate). reflexivity.
        - reflexivity. }
      eapply steps_builtin; [reflexivity|reflexivity| |].
      { eapply (builtin_set _ _ _ _ _ $"AbstractSource" $"AbstractASTMatcherRule.cpp" [$"AbstractASTRuleBase.cpp"; $"AbstractSourceCodeReaderRule.cpp"]); [reflexivity| |reflexivity].
        unfold plain_values. cbn [c_args cmd]. rewrite !values_ulit by (reflexivity || discriminate). reflexivity. }
      eapply (step_static _ $"OCLintAbstractRule"); [reflexivity|reflexivity| | |apply steps_nil].
      - unfold plain_values. rewrite (values_u _ _ $"OCLintAbstractRule") by side. reflexivity.
      - reflexivity. }
    all: reflexivity.
  Qed.
End Root.
