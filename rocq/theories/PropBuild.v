(** * C138, C139: the commands of a build, and what a green run of ci means *)
From Verif Require Import Base BaseFacts SpecConfig ProofConfig SpecReporters ProofReporters ModelScaffold ModelBuild SpecBuild.
Local Arguments lit : simpl never.

(** ** Words *)
Definition plains (w : str) : Prop := forall c, In c w -> ~ In c special.
Lemma plains_app a b : plains a -> plains b -> plains (a ++ b).
Proof. intros A B c I. apply in_app_iff in I as [I|I]; auto. Qed.
Definition plainsb (w : str) : bool := forallb (fun c => negb (existsb (ascii_eqb c) special)) w.
Lemma plains_lit w : plainsb w = true -> plains w.
Proof.
  intros H c I J. unfold plainsb in H. rewrite forallb_forall in H. specialize (H c I). apply negb_true_iff in H.
  assert (existsb (ascii_eqb c) special = true) by (apply existsb_exists; exists c; split; [exact J|now apply ascii_eqb_eq]). congruence.
Qed.
Lemma plain_app a b : plain a -> plains b -> plain (a ++ b).
Proof. intros (N & A) B. split; [destruct a; [contradiction|discriminate]|now apply plains_app]. Qed.
Lemma plain_lit w : w <> [] -> plainsb w = true -> plain w.
Proof. intros N H. split; [exact N|now apply plains_lit]. Qed.
Lemma digit_plain c : isdigit c = true -> ~ In c special.
Proof.
  intros D. assert (P : plainsb [c] = true) by (revert D; destruct c as [[] [] [] [] [] [] [] []]; intros D; try discriminate D; reflexivity).
  apply (plains_lit [c] P). now left.
Qed.
Lemma plain_show z : plain (show_Z z).
Proof.
  split; [apply show_nonempty|]. intros c I. pose proof (show_chars z) as F. rewrite Forall_forall in F. destruct (F c I) as [D| ->].
  - now apply digit_plain.
  - apply (plains_lit $"-"); [reflexivity|now left].
Qed.
Lemma splits_app a ws b vs : splits a ws -> splits b vs -> splits (a ++ " "%char :: b) (ws ++ vs).
Proof.
  intros H B. induction H; cbn [app].
  - now apply sp_blank.
  - now apply sp_blank.
  - now apply sp_word.
  - rewrite <- app_assoc. now apply sp_word.
  - now apply sp_into.
Qed.
Lemma hd_plain w t c u : plain w -> In c special -> w ++ t = c :: u -> False.
Proof. intros (N & P) I E. destruct w as [|x w]; [contradiction|]. apply (f_equal (fun l => hd x l)) in E. cbn in E. subst x. exact (P c (or_introl eq_refl) I). Qed.
Lemma all_plain w t u : plain w -> w = t ++ " "%char :: u -> False.
Proof. intros (N & P) ->. apply (P " "%char); [apply in_app_iff; right; now left|now left]. Qed.
Lemma blank_special : In " "%char special.
Proof. now left. Qed.
Lemma into_special : In ">"%char special.
Proof. do 7 right. now left. Qed.
Lemma splits_fun a ws vs : splits a ws -> splits a vs -> ws = vs.
Proof.
  assert (F : forall w cmd w' cmd', plain w -> plain w' -> w ++ " "%char :: cmd = w' ++ " "%char :: cmd' -> w = w' /\ cmd = cmd').
  { intros w cmd w' cmd' (_ & P) (_ & P') E. revert w' P' E. induction w as [|x w IH]; intros [|x' w'] P' E; cbn [app] in E.
    - now injection E as ->.
    - exfalso. apply (f_equal (fun l => hd x' l)) in E. cbn in E. apply (P' " "%char); [left; now symmetry|now left].
    - exfalso. apply (f_equal (fun l => hd x l)) in E. cbn in E. apply (P " "%char); [left; now symmetry|now left].
    - pose proof (f_equal (fun l => hd x l) E) as E1. apply (f_equal (@tl _)) in E. cbn [hd tl] in E, E1. subst x'.
      destruct (IH (fun c I => P c (or_intror I)) w' (fun c I => P' c (or_intror I)) E) as (-> & ->). auto. }
  intros H. revert vs. induction H as [|cmd ws H IH|w P|w cmd ws P H IH|cmd ws H IH]; intros vs V;
    inversion V as [E|c' v' V' E|w' P' E|w' c' v' P' V' E|c' v' V' E]; clear V; try reflexivity; try subst v'.
  - subst. destruct P' as (P' & _). contradiction.
  - destruct w'; discriminate.
  - apply IH, V'.
  - subst. exfalso. apply (hd_plain _ [] " "%char cmd P' blank_special). apply app_nil_r.
  - exfalso. exact (hd_plain _ _ _ _ P' blank_special E).
  - subst. destruct P as (P & _). contradiction.
  - subst w. exfalso. apply (hd_plain _ [] " "%char c' P blank_special). apply app_nil_r.
  - exfalso. exact (all_plain _ _ _ P (eq_sym E)).
  - subst w. exfalso. apply (hd_plain _ [] _ (" "%char :: c') P into_special). apply app_nil_r.
  - destruct w; discriminate.
  - exfalso. exact (hd_plain _ _ _ _ P blank_special (eq_sym E)).
  - exfalso. exact (all_plain _ _ _ P' eq_refl).
  - destruct (F _ _ _ _ P' P E) as (-> & ->). f_equal. now apply IH.
  - exfalso. exact (hd_plain _ _ _ _ P into_special (eq_sym E)).
  - subst. exfalso. apply (hd_plain _ [] _ (" "%char :: cmd) P' into_special). apply app_nil_r.
  - exfalso. exact (hd_plain _ _ _ _ P' into_special E).
  - f_equal. now apply IH.
Qed.

(** ** C138: the commands *)
Definition good_root (root : str) : Prop := plain root /\ forall r, root <> r ++ $"/".
Lemma pjoin_under d n : d <> [] -> (forall r, d <> r ++ $"/") -> pjoin d n = under d n.
Proof.
  intros N E. unfold pjoin, under. destruct (rev d) as [|c r] eqn:R.
  - apply (f_equal (@rev _)) in R. rewrite rev_involutive in R. contradiction.
  - destruct (ascii_eqb c "/"%char) eqn:C; [|reflexivity]. apply ascii_eqb_eq in C as ->. exfalso. apply (E (rev r)).
    rewrite <- (rev_involutive d), R. reflexivity.
Qed.
Lemma root_under root n : good_root root -> pjoin root n = under root n.
Proof. intros ((N & _) & E). now apply pjoin_under. Qed.
Lemma plain_under root n : plain root -> plains n -> plain (under root n).
Proof. intros P N. apply plain_app; [exact P|]. apply plains_app; [now apply plains_lit|exact N]. Qed.

Lemma splits_append key v cmd ws : splits cmd ws -> plain (key ++ $"=" ++ v) -> splits (append false key v cmd) (ws ++ define key v).
Proof.
  intros H P. unfold append, define.
  replace (cmd ++ $" -D " ++ key ++ $"=" ++ v) with (cmd ++ " "%char :: ($"-D" ++ " "%char :: (key ++ $"=" ++ v))) by reflexivity.
  apply splits_app; [exact H|]. apply sp_word; [now apply plain_lit|]. now apply sp_last.
Qed.
Lemma splits_dict d cmd ws : splits cmd ws -> (forall k v, In (k, v) d -> plain (k ++ $"=" ++ v)) ->
  splits (append_dict d cmd) (ws ++ flat_map (fun kv => define (fst kv) (snd kv)) d).
Proof.
  revert cmd ws. induction d as [|(k & v) d IH]; intros cmd ws H P; [cbn; now rewrite app_nil_r|].
  cbn [flat_map fst snd]. rewrite app_assoc. apply (IH (append false k v cmd)).
  - apply splits_append; [exact H|]. apply P. now left.
  - intros k' v' I. apply P. now right.
Qed.
Lemma splits_ninja cmd ws : splits cmd ws -> splits (use_ninja cmd) (ws ++ [$"-G"; $"Ninja"]).
Proof.
  intros H. unfold use_ninja. replace (cmd ++ $" -G Ninja") with (cmd ++ " "%char :: ($"-G" ++ " "%char :: $"Ninja")) by reflexivity.
  apply splits_app; [exact H|]. apply sp_word; [now apply plain_lit|]. apply sp_last. now apply plain_lit.
Qed.
Lemma splits_source src cmd ws : splits cmd ws -> plain src -> splits (cmake_str src cmd) (ws ++ [src]).
Proof. intros H P. apply splits_app; [exact H|now apply sp_last]. Qed.

Section Commands.
Variable h : host.
Hypothesis Root : good_root (h_root h).
Let root := h_root h.
Lemma scripts_at : scripts_dir h = under root $"oclint-scripts".
Proof. now apply root_under. Qed.
Lemma build_root_at : build_root h = under root $"build".
Proof. now apply root_under. Qed.
Lemma no_end a n : n <> [] -> (forall r, n <> r ++ $"/") -> forall r, under a n <> r ++ $"/".
Proof.
  intros N E r H. destruct (exists_last N) as (m & c & ->). unfold under in H. rewrite !app_assoc in H. apply app_inj_tail in H as (_ & ->). now apply (E m).
Qed.
Lemma no_end_lit n : match rev n with c :: _ => negb (ascii_eqb c "/"%char) | [] => false end = true -> n <> [] /\ forall r, n <> r ++ $"/".
Proof.
  intros H. split; [intros ->; discriminate H|]. intros r ->. rewrite rev_app_distr in H. discriminate H.
Qed.
Lemma build_dir_at n : module_build_dir h n = under root ($"build/" ++ n).
Proof.
  unfold module_build_dir. rewrite build_root_at. rewrite pjoin_under.
  - unfold under. now rewrite <- !app_assoc.
  - unfold under. destruct root; discriminate.
  - now apply no_end; apply no_end_lit.
Qed.
Lemma source_at m : oclint_module_source_dir h m = source root m.
Proof. now apply root_under. Qed.
Lemma built_at m : oclint_module_build_dir h m = built_in root m.
Proof. unfold oclint_module_build_dir. rewrite build_dir_at. reflexivity. Qed.
Lemma tested_at m : oclint_module_test_dir h m = tested_in root m.
Proof. unfold oclint_module_test_dir. rewrite build_dir_at. reflexivity. Qed.
Lemma checked_at m : oclint_module_dogfooding_dir h m = checked_in root m.
Proof. unfold oclint_module_dogfooding_dir. rewrite build_dir_at. reflexivity. Qed.
Lemma llvm_at : clang_install_dir h = under root $"build/llvm-install".
Proof. unfold clang_install_dir. now rewrite build_dir_at. Qed.
Lemma gtest_at : googletest_dir h = under root $"googletest".
Proof. now apply root_under. Qed.
Lemma gtest_build_at : googletest_build_dir h = under root $"build/googletest/lib".
Proof.
  unfold googletest_build_dir. rewrite build_dir_at, pjoin_under.
  - unfold under. now rewrite <- !app_assoc.
  - unfold under. destruct root; discriminate.
  - now apply no_end; apply no_end_lit.
Qed.
Lemma in_modules m : In m modules -> m = $"core" \/ m = $"metrics" \/ m = $"rules" \/ m = $"reporters" \/ m = $"driver".
Proof. cbn [modules In]. intuition. Qed.
Lemma module_plains m : In m modules -> plains m.
Proof. intros I. apply in_modules in I as [->|[->|[->|[->| ->]]]]; now apply plains_lit. Qed.
Lemma source_plain m : In m modules -> plain (source root m).
Proof. intros I. apply plain_under; [apply Root|]. apply plains_app; [now apply plains_lit|now apply module_plains]. Qed.

(** Where other modules are. *)
Lemma splits_extras dir dir' m : In m modules -> (forall d, dir d = dir' d) -> (forall d, In d modules -> plain (dir' d)) ->
  flat_map (fun kv => define (fst kv) (snd kv)) (module_extras h dir m) = uses root dir' m
  /\ forall k v, In (k, v) (module_extras h dir m) -> plain (k ++ $"=" ++ v).
Proof.
  intros I E P. assert (C : In $"core" modules) by now left. assert (Me : In $"metrics" modules) by (right; now left).
  assert (K : forall k v, plain v -> plain k -> plain (k ++ $"=" ++ v)).
  { intros k v (_ & Pv) Pk. apply plain_app; [exact Pk|]. apply plains_app; [now apply plains_lit|exact Pv]. }
  assert (Mod : forall k v, In (k, v) (module_extras h dir m) -> plain k /\ plain v).
  { intros k v J. unfold module_extras in J. rewrite !source_at, !E in J. apply in_app_iff in J as [J|J].
    - destruct (str_eqb m $"rules" || str_eqb m $"reporters" || str_eqb m $"driver"); [|contradiction]. destruct J as [J|[J|[]]]; injection J as <- <-.
      + split; [now apply plain_lit|now apply source_plain].
      + split; [now apply plain_lit|now apply P].
    - destruct (str_eqb m $"rules"); [|contradiction]. destruct J as [J|[J|[]]]; injection J as <- <-.
      + split; [now apply plain_lit|now apply source_plain].
      + split; [now apply plain_lit|now apply P]. }
  split; [|intros k v J; apply Mod in J as (Pk & Pv); now apply K].
  unfold module_extras. rewrite !source_at, !E.
  apply in_modules in I as [->|[->|[->|[->| ->]]]]; reflexivity.
Qed.
Lemma splits_cmake : splits cmake_ [$"cmake"].
Proof. apply sp_last. now apply plain_lit. Qed.
Lemma plain_setting key v : plain key -> plain v -> plain (key ++ $"=" ++ v).
Proof. intros Pk (_ & Pv). apply plain_app; [exact Pk|]. apply plains_app; [now apply plains_lit|exact Pv]. Qed.
Lemma dirs_plain d : In d modules -> plain (built_in root d) /\ plain (tested_in root d) /\ plain (checked_in root d).
Proof.
  intros I. pose proof (module_plains d I) as P. repeat split; try (unfold built_in, tested_in, checked_in, under; destruct root; discriminate);
  (apply plain_under; [apply Root|]); repeat apply plains_app; try exact P; now apply plains_lit.
Qed.
Lemma build_words llvm m rel nn dg : plain llvm -> In m modules ->
  splits (build_command llvm rel nn dg (module_extras h (oclint_module_build_dir h) m) (oclint_module_source_dir h m)) (configure root llvm rel (negb nn) dg m).
Proof.
  intros Pl I. destruct (splits_extras (oclint_module_build_dir h) (built_in root) m I built_at) as (E & P); [intros d J; apply dirs_plain, J|].
  unfold build_command. rewrite source_at. cbv zeta.
  assert (H : exists ws, ws = [$"cmake"] ++ if_ (negb nn) [$"-G"; $"Ninja"] ++ if_ rel (define $"OCLINT_BUILD_TYPE" $"Release") ++ if_ dg (define $"DOC_GEN_BUILD" $"1")
    /\ splits (if dg then doc_gen_build (if rel then release_build (if nn then cmake_ else use_ninja cmake_) else if nn then cmake_ else use_ninja cmake_)
               else if rel then release_build (if nn then cmake_ else use_ninja cmake_) else if nn then cmake_ else use_ninja cmake_) ws).
  { eexists. split; [reflexivity|]. rewrite !app_assoc.
    assert (H1 : splits (if nn then cmake_ else use_ninja cmake_) ([$"cmake"] ++ if_ (negb nn) [$"-G"; $"Ninja"])).
    { destruct nn; cbn [negb if_]; [rewrite app_nil_r; apply splits_cmake|apply splits_ninja, splits_cmake]. }
    assert (H2 : splits (if rel then release_build (if nn then cmake_ else use_ninja cmake_) else if nn then cmake_ else use_ninja cmake_)
       (([$"cmake"] ++ if_ (negb nn) [$"-G"; $"Ninja"]) ++ if_ rel (define $"OCLINT_BUILD_TYPE" $"Release"))).
    { destruct rel; cbn [if_]; [apply splits_append; [exact H1|now apply plain_lit]|now rewrite app_nil_r]. }
    destruct dg; cbn [if_]; [apply splits_append; [exact H2|now apply plain_lit]|now rewrite app_nil_r]. }
  destruct H as (ws & -> & H).
  assert (Q : configure root llvm rel (negb nn) dg m =
    (([$"cmake"] ++ if_ (negb nn) [$"-G"; $"Ninja"] ++ if_ rel (define $"OCLINT_BUILD_TYPE" $"Release") ++ if_ dg (define $"DOC_GEN_BUILD" $"1"))
     ++ flat_map (fun kv => define (fst kv) (snd kv)) (($"LLVM_ROOT", llvm) :: module_extras h (oclint_module_build_dir h) m)) ++ [source root m]).
  { cbn [flat_map fst snd]. rewrite E. unfold configure. rewrite <- !app_assoc. reflexivity. }
  rewrite Q. apply splits_source; [|now apply source_plain]. apply splits_dict; [exact H|].
  intros k v [J|J]; [injection J as <- <-; apply plain_setting; [now apply plain_lit|exact Pl]|now apply P].
Qed.
Lemma test_words llvm m ad nn : plain llvm -> In m modules ->
  splits (test_command h llvm ad nn (module_extras h (oclint_module_test_dir h) m) (oclint_module_source_dir h m)) (configure_tests root llvm (negb ad) (negb nn) m).
Proof.
  intros Pl I. destruct (splits_extras (oclint_module_test_dir h) (tested_in root) m I tested_at) as (E & P); [intros d J; apply dirs_plain, J|].
  unfold test_command. rewrite source_at, gtest_at, gtest_build_at. cbv zeta.
  assert (H1 : splits (if ad then cmake_ else test_build cmake_) ([$"cmake"] ++ if_ (negb ad) (define $"TEST_BUILD" $"1"))).
  { destruct ad; cbn [negb if_]; [rewrite app_nil_r; apply splits_cmake|apply splits_append; [apply splits_cmake|now apply plain_lit]]. }
  assert (H2 : splits (if nn then if ad then cmake_ else test_build cmake_ else use_ninja (if ad then cmake_ else test_build cmake_))
    (([$"cmake"] ++ if_ (negb ad) (define $"TEST_BUILD" $"1")) ++ if_ (negb nn) [$"-G"; $"Ninja"])).
  { destruct nn; cbn [negb if_]; [now rewrite app_nil_r|now apply splits_ninja]. }
  set (d := ($"LLVM_ROOT", llvm) :: ($"GOOGLETEST_SRC", under root $"googletest") :: ($"GOOGLETEST_BUILD", under root $"build/googletest/lib") :: module_extras h (oclint_module_test_dir h) m).
  assert (Q : configure_tests root llvm (negb ad) (negb nn) m =
    ((([$"cmake"] ++ if_ (negb ad) (define $"TEST_BUILD" $"1")) ++ if_ (negb nn) [$"-G"; $"Ninja"]) ++ flat_map (fun kv => define (fst kv) (snd kv)) d) ++ [source root m]).
  { unfold d. cbn [flat_map fst snd]. rewrite E. unfold configure_tests. rewrite <- !app_assoc. reflexivity. }
  rewrite Q. apply splits_source; [|now apply source_plain]. apply splits_dict; [exact H2|].
  intros k v [J|[J|[J|J]]]; [| | |now apply P]; injection J as <- <-; (apply plain_setting; [now apply plain_lit|]);
    [exact Pl|apply plain_under; [apply Root|now apply plains_lit]|apply plain_under; [apply Root|now apply plains_lit]].
Qed.
Lemma check_words llvm m : plain llvm -> In m modules ->
  splits (dogfooding_command llvm (module_extras h (oclint_module_build_dir h) m) (oclint_module_source_dir h m)) (configure_check root llvm m).
Proof.
  intros Pl I. destruct (splits_extras (oclint_module_build_dir h) (built_in root) m I built_at) as (E & P); [intros d J; apply dirs_plain, J|].
  unfold dogfooding_command. rewrite source_at.
  assert (Q : configure_check root llvm m = (([$"cmake"] ++ define $"CMAKE_EXPORT_COMPILE_COMMANDS" $"ON") ++ flat_map (fun kv => define (fst kv) (snd kv)) (($"LLVM_ROOT", llvm) :: module_extras h (oclint_module_build_dir h) m)) ++ [source root m]).
  { cbn [flat_map fst snd]. rewrite E. unfold configure_check. rewrite <- !app_assoc. reflexivity. }
  rewrite Q. apply splits_source; [|now apply source_plain]. apply splits_dict; [apply splits_append; [apply splits_cmake|now apply plain_lit]|].
  intros k v [J|J]; [injection J as <- <-; apply plain_setting; [now apply plain_lit|exact Pl]|now apply P].
Qed.
Lemma jobs_words tool n : plain tool -> n = (if (n =? 0)%Z then h_cpus h else n) -> splits (tool ++ j_flag h n) (with_jobs tool n).
Proof.
  intros P E. unfold j_flag. rewrite <- E. replace (tool ++ $" -j " ++ show_Z n) with (tool ++ " "%char :: ($"-j" ++ " "%char :: show_Z n)) by reflexivity.
  apply sp_word; [exact P|]. apply sp_word; [now apply plain_lit|]. apply sp_last, plain_show.
Qed.
End Commands.

(** ** C138 *)

(** The programs that are run are given the words that the configuration asks for, when the paths
    have no character special to the shell. *)
Theorem c138_configure : forall h llvm m release no_ninja docgen,
  good_root (h_root h) -> plain llvm -> In m modules ->
  splits (build_command llvm release no_ninja docgen (module_extras h (oclint_module_build_dir h) m) (oclint_module_source_dir h m))
         (configure (h_root h) llvm release (negb no_ninja) docgen m).
Proof. intros. now apply build_words. Qed.
Theorem c138_configure_tests : forall h llvm m as_dep no_ninja,
  good_root (h_root h) -> plain llvm -> In m modules ->
  splits (test_command h llvm as_dep no_ninja (module_extras h (oclint_module_test_dir h) m) (oclint_module_source_dir h m))
         (configure_tests (h_root h) llvm (negb as_dep) (negb no_ninja) m).
Proof. intros. now apply test_words. Qed.
Theorem c138_configure_check : forall h llvm m,
  good_root (h_root h) -> plain llvm -> In m modules ->
  splits (dogfooding_command llvm (module_extras h (oclint_module_build_dir h) m) (oclint_module_source_dir h m))
         (configure_check (h_root h) llvm m).
Proof. intros. now apply check_words. Qed.
(** There is no other way to split them. *)
Theorem c138_one_reading : forall cmd ws vs, splits cmd ws -> splits cmd vs -> ws = vs.
Proof. exact splits_fun. Qed.
(** No module is built before those it uses, and all are built once. *)
Theorem c138_needed_first : NoDup OCLINT_MODULES /\ (forall m, In m OCLINT_MODULES <-> In m modules)
  /\ forall before m after, OCLINT_MODULES = before ++ m :: after -> incl (needs m) before.
Proof.
  split; [|split; [reflexivity|]].
  - repeat constructor; cbn; intuition discriminate.
  - intros before m after E.
    unfold OCLINT_MODULES in E.
    destruct before as [|b1 [|b2 [|b3 [|b4 [|b5 b]]]]]; cbn [app] in E.
    + pose proof (f_equal (fun l => nth 0 l []) E) as E1. cbn [nth] in E1. subst m. intros x [].
    + pose proof (f_equal (fun l => nth 1 l []) E) as E1. cbn [nth] in E1. subst m. intros x [].
    + pose proof (f_equal (fun l => nth 0 l []) E) as E0. pose proof (f_equal (fun l => nth 1 l []) E) as E1. pose proof (f_equal (fun l => nth 2 l []) E) as E2.
      cbn [nth] in E0, E1, E2. subst m b1 b2. intros x I. exact I.
    + pose proof (f_equal (fun l => nth 0 l []) E) as E0. pose proof (f_equal (fun l => nth 3 l []) E) as E3.
      cbn [nth] in E0, E3. subst m b1. intros x [<-|[]]. now left.
    + pose proof (f_equal (fun l => nth 0 l []) E) as E0. pose proof (f_equal (fun l => nth 4 l []) E) as E4.
      cbn [nth] in E0, E4. subst m b1. intros x [<-|[]]. now left.
    + apply (f_equal (@length _)) in E. cbn [length] in E. rewrite app_length in E. cbn [length] in E. lia.
Qed.
(** A checkout in a directory with a blank in its name: cmake gets another source directory. *)
Definition blank_host := {| h_root := $"/my src"; h_python := $"python3"; h_cpus := 8; h_kernel := $"Linux"; h_arch := $"x86_64"; h_tmp := $"/tmp";
  h_run := fun _ _ _ => 0%Z; h_does := fun _ _ _ => true |}.
Theorem c138_blank_refuted : exists h llvm m ws, plain llvm /\ In m modules
  /\ splits (build_command llvm false false false (module_extras h (oclint_module_build_dir h) m) (oclint_module_source_dir h m)) ws
  /\ ws <> configure (h_root h) llvm false true false m /\ last ws [] = $"src/oclint-core" /\ In $"/my" ws.
Proof.
  exists blank_host, $"/llvm", $"core", [$"cmake"; $"-G"; $"Ninja"; $"-D"; $"LLVM_ROOT=/llvm"; $"/my"; $"src/oclint-core"].
  split; [now apply plain_lit|]. split; [now left|]. split.
  - change (build_command _ _ _ _ _ _) with ($"cmake" ++ " "%char :: $"-G" ++ " "%char :: $"Ninja" ++ " "%char :: $"-D" ++ " "%char :: $"LLVM_ROOT=/llvm" ++ " "%char :: $"/my" ++ " "%char :: $"src/oclint-core").
    repeat (apply sp_word; [now apply plain_lit|]). apply sp_last. now apply plain_lit.
  - split; [discriminate|]. split; [reflexivity|]. cbn [In]. tauto.
Qed.
Definition usual_host := {| h_root := $"/work/oclint"; h_python := $"/usr/bin/python3"; h_cpus := 8; h_kernel := $"Linux"; h_arch := $"x86_64"; h_tmp := $"/tmp";
  h_run := fun _ _ _ => 0%Z; h_does := fun _ _ op => match op with IsDir _ => false | _ => true end |}.
Lemma good_lit r : match rev r with c :: _ => negb (ascii_eqb c "/"%char) | [] => false end = true -> plainsb r = true -> good_root r.
Proof. intros H P. apply no_end_lit in H as (N & E). split; [now apply plain_lit|exact E]. Qed.
Example c138_case : good_root (h_root usual_host) /\ splits
  (build_command (clang_install_dir usual_host) true false false (module_extras usual_host (oclint_module_build_dir usual_host) $"rules") (oclint_module_source_dir usual_host $"rules"))
  [$"cmake"; $"-G"; $"Ninja"; $"-D"; $"OCLINT_BUILD_TYPE=Release"; $"-D"; $"LLVM_ROOT=/work/oclint/build/llvm-install";
   $"-D"; $"OCLINT_SOURCE_DIR=/work/oclint/oclint-core"; $"-D"; $"OCLINT_BUILD_DIR=/work/oclint/build/oclint-core";
   $"-D"; $"OCLINT_METRICS_SOURCE_DIR=/work/oclint/oclint-metrics"; $"-D"; $"OCLINT_METRICS_BUILD_DIR=/work/oclint/build/oclint-metrics"; $"/work/oclint/oclint-rules"].
Proof.
  assert (G : good_root (h_root usual_host)) by now apply good_lit.
  split; [exact G|]. exact (c138_configure usual_host (clang_install_dir usual_host) $"rules" true false false G (plain_lit (clang_install_dir usual_host) ltac:(discriminate) eq_refl) (or_intror (or_intror (or_introl eq_refl)))).
Qed.

(** ** C139: what a run of ci did, from how it ended *)

(** An event that is what a step of the plan asks for, with success ... *)
Definition does (e : event) (t : todo) : Prop :=
  match t with
  | Run dir ws => exists cmd, e = Ran dir cmd 0 /\ splits cmd ws
  | RunText dir cmd => e = Ran dir cmd 0
  | Remove p => e = Did (RmF p) true
  | Make p => e = Did (MkdirP p) true
  | CopyFile a b => e = Did (Copy a b) true
  | CopyDir a b => e = Did (CopyTree a b) true
  | Show p => e = Did (ShowFile p) true
  | Absent p => e = Did (IsDir p) false
  end.
(** ... or without. *)
Definition fails (e : event) (t : todo) : Prop :=
  match t with
  | Run dir ws => exists cmd code, e = Ran dir cmd code /\ code <> 0%Z /\ splits cmd ws
  | RunText dir cmd => exists code, e = Ran dir cmd code /\ code <> 0%Z
  | Remove p => e = Did (RmF p) false
  | Make p => e = Did (MkdirP p) false
  | CopyFile a b => e = Did (Copy a b) false
  | CopyDir a b => e = Did (CopyTree a b) false
  | Show p => e = Did (ShowFile p) false
  | Absent p => e = Did (IsDir p) true
  end.
(** The plan does not speak of changes of the current directory: its steps name theirs. *)
Definition counts (e : event) : bool := match e with Did (Chdir _) _ => false | _ => true end.
Definition steps (l : list event) : list event := filter counts l.
Definition bad (e : event) : bool :=
  match e with
  | Ran _ _ code => negb (code =? 0)%Z
  | Did (IsDir _) ok => ok
  | Did _ ok => negb ok
  end.
Definition status_of (e : event) : Z := match e with Ran _ _ code => code mod 256 | Did _ _ => 1 end.

(** *** Sequences of actions *)
Inductive action := ARun (cmd : str) | AShow (cmd f : str) | AOp (op : fileop) | ANot (p : str).
Definition isnt (op : fileop) : bool := match op with IsDir _ => false | _ => true end.

Section Ci.
Variable h : host.
Hypothesis Codes : forall past cwd cmd, (-256 < h_run h past cwd cmd < 256)%Z.

Definition act (a : action) : M :=
  match a with
  | ARun cmd => call h cmd
  | AShow cmd f => subprocess_call h cmd (fun code => fileop_ h (ShowFile f);; if (code =? 0)%Z then done else sys_exit code)
  | AOp op => fileop_ h op
  | ANot p => if_dir h p (sys_exit 1) done
  end.
Definition perform (l : list action) : M := each l act.
Definition after_ (cwd : str) (a : action) : str := match a with AOp (Chdir p) => p | _ => cwd end.
Definition ok_one (cwd : str) (a : action) : list event :=
  match a with
  | ARun cmd => [Ran cwd cmd 0]
  | AShow cmd f => [Ran cwd cmd 0; Did (ShowFile f) true]
  | AOp op => [Did op true]
  | ANot p => [Did (IsDir p) false]
  end.
Fixpoint ok_events (cwd : str) (l : list action) : list event :=
  match l with [] => [] | a :: l' => ok_one cwd a ++ ok_events (after_ cwd a) l' end.
Definition ends (cwd : str) (l : list action) : str := fold_left after_ l cwd.

Lemma seq_assoc m n k s : ((m;; n);; k) s = (m;; n;; k) s.
Proof. unfold seq. destruct (m s) as ([|c] & s1); reflexivity. Qed.
Lemma perform_app l k s : perform (l ++ k) s = (perform l;; perform k) s.
Proof.
  unfold perform. revert s. induction l as [|a l IH]; intros s; [reflexivity|].
  cbn [app each]. unfold seq. destruct (act a s) as ([|c] & s1); [|reflexivity]. apply IH.
Qed.
Lemma ok_events_app cwd l k : ok_events cwd (l ++ k) = ok_events cwd l ++ ok_events (ends cwd l) k.
Proof. revert cwd. induction l as [|a l IH]; intros cwd; [reflexivity|]. cbn [app ok_events]. rewrite IH, app_assoc. reflexivity. Qed.
Lemma ends_app cwd l k : ends cwd (l ++ k) = ends (ends cwd l) k.
Proof. apply fold_left_app. Qed.

(** The events are those of the machine. *)
Definition honest (past : list event) (e : event) (cwd : str) : Prop :=
  match e with Ran d cmd code => d = cwd /\ code = h_run h past cwd cmd | Did op ok => ok = h_does h past cwd op end.

(** What a failing action leaves. *)
Definition failed (cwd : str) (a : action) (evs : list event) (c : Z) : Prop :=
  match a with
  | ARun cmd => evs = [Ran cwd cmd c] /\ c <> 0%Z /\ (-256 < c < 256)%Z
  | AShow cmd f =>
      (evs = [Ran cwd cmd 0; Did (ShowFile f) false] /\ c = 1%Z)
      \/ exists k ok, evs = [Ran cwd cmd k; Did (ShowFile f) ok] /\ k <> 0%Z /\ (-256 < k < 256)%Z /\ c = (if ok then k else 1%Z)
  | AOp op => evs = [Did op false] /\ c = 1%Z
  | ANot p => evs = [Did (IsDir p) true] /\ c = 1%Z
  end.
Lemma act_ends a s :
  (exists c evs, fst (act a s) = Exits c /\ p_past (snd (act a s)) = p_past s ++ evs /\ failed (p_cwd s) a evs c)
  \/ (fst (act a s) = Done /\ p_past (snd (act a s)) = p_past s ++ ok_one (p_cwd s) a /\ p_cwd (snd (act a s)) = after_ (p_cwd s) a).
Proof.
  destruct a as [cmd|cmd f|op|p]; cbn [act].
  - unfold call, subprocess_call. cbn [ok_one after_ failed]. set (c := h_run h (p_past s) (p_cwd s) cmd).
    destruct (c =? 0)%Z eqn:E.
    + right. apply Z.eqb_eq in E. rewrite E. repeat split.
    + left. apply Z.eqb_neq in E. exists c, [Ran (p_cwd s) cmd c]. repeat split; try exact E; apply Codes.
  - unfold subprocess_call. cbn [ok_one after_ failed]. set (c := h_run h (p_past s) (p_cwd s) cmd).
    unfold seq, fileop_, did. cbn [p_past p_cwd]. destruct (h_does h _ _ (ShowFile f)) eqn:Sh.
    + destruct (c =? 0)%Z eqn:E.
      * right. apply Z.eqb_eq in E. rewrite E. cbn [fst snd p_past p_cwd]. unfold done. cbn [fst snd p_past p_cwd]. rewrite <- app_assoc. repeat split.
      * left. apply Z.eqb_neq in E. exists c, [Ran (p_cwd s) cmd c; Did (ShowFile f) true]. unfold sys_exit. cbn [fst snd p_past]. rewrite <- app_assoc.
        repeat split. right. exists c, true. repeat split; try exact E; apply Codes.
    + left. exists 1%Z, [Ran (p_cwd s) cmd c; Did (ShowFile f) false]. cbn [fst snd p_past]. rewrite <- app_assoc. repeat split.
      destruct (Z.eq_dec c 0) as [->|N]; [now left|]. right. exists c, false. repeat split; try exact N; apply Codes.
  - unfold fileop_, did. destruct (h_does h (p_past s) (p_cwd s) op) eqn:E; cbn [fst snd p_past p_cwd].
    + right. repeat split.
    + left. exists 1%Z, [Did op false]. repeat split.
  - unfold if_dir, did. destruct (h_does h (p_past s) (p_cwd s) (IsDir p)) eqn:E; cbn [fst snd p_past p_cwd sys_exit done].
    + left. exists 1%Z, [Did (IsDir p) true]. repeat split.
    + right. repeat split.
Qed.
Lemma failed_code cwd a evs c : failed cwd a evs c -> (c mod 256 <> 0)%Z.
Proof.
  assert (K : forall z, z <> 0%Z -> (-256 < z < 256)%Z -> (z mod 256 <> 0)%Z).
  { intros z N B M. apply Z.mod_divide in M; [|lia]. destruct M as (q & ->). lia. }
  destruct a; cbn [failed].
  - intros (_ & N & B). now apply K.
  - intros [(_ & ->)|(k & ok & _ & N & B & ->)]; [discriminate|]. destruct ok; [now apply K|discriminate].
  - intros (_ & ->). discriminate.
  - intros (_ & ->). discriminate.
Qed.
Lemma perform_ends l s :
  (exists c evs l1 a l2, fst (perform l s) = Exits c /\ l = l1 ++ a :: l2
     /\ p_past (snd (perform l s)) = p_past s ++ ok_events (p_cwd s) l1 ++ evs /\ failed (ends (p_cwd s) l1) a evs c)
  \/ (fst (perform l s) = Done /\ p_past (snd (perform l s)) = p_past s ++ ok_events (p_cwd s) l /\ p_cwd (snd (perform l s)) = ends (p_cwd s) l).
Proof.
  revert s. induction l as [|a l IH]; intros s.
  - right. cbn. rewrite app_nil_r. auto.
  - unfold perform. cbn [each]. unfold seq. destruct (act_ends a s) as [(c & evs & E & P & F)|(E & P & C)].
    + left. exists c, evs, [], a, l. destruct (act a s) as (e & s1). cbn [fst snd] in *. subst e. cbn [fst snd app ok_events ends fold_left].
      split; [reflexivity|]. split; [reflexivity|]. split; [exact P|exact F].
    + destruct (act a s) as (e & s1). cbn [fst snd] in *. subst e. destruct (IH s1) as [(c & evs & l1 & b & l2 & E & L & P' & F)|(E & P' & C')].
      * left. exists c, evs, (a :: l1), b, l2. fold (perform l). split; [exact E|]. split; [now rewrite L|]. split.
        -- rewrite P', P, C. cbn [ok_events]. now rewrite <- !app_assoc.
        -- cbn [ends fold_left]. rewrite <- C. exact F.
      * right. fold (perform l). split; [exact E|]. split; [|cbn [ends fold_left]; rewrite <- C; exact C'].
        rewrite P', P, C. cbn [ok_events]. now rewrite <- !app_assoc.
Qed.

(** *** A script does the actions, and its parent sees the same end *)
Definition same (r r' : ending * proc) : Prop :=
  p_past (snd r) = p_past (snd r')
  /\ match fst r, fst r' with
     | Done, Done => p_cwd (snd r) = p_cwd (snd r')
     | Exits c, Exits d => (c mod 256 = d mod 256)%Z /\ (c mod 256 <> 0)%Z
     | _, _ => False
     end.
Definition sim (m : M) (c : str) (l : list action) (c' : str) : Prop :=
  ends c l = c' /\ forall s, p_cwd s = c -> same (m s) (perform l s).
(** ... and the actions are what the plan says. *)
Definition follows (m : M) (c : str) (td : list todo) (c' : str) : Prop :=
  exists l, sim m c l c' /\ Forall2 does (steps (ok_events c l)) td.

Lemma same_act a s : same (act a s) (perform [a] s).
Proof.
  unfold perform. cbn [each]. unfold seq. destruct (act_ends a s) as [(c & evs & E & P & F)|(E & P & C)]; destruct (act a s) as (e & s1); cbn [fst snd] in *; subst e.
  - split; [reflexivity|]. cbn. split; [reflexivity|]. eapply failed_code, F.
  - split; [reflexivity|]. reflexivity.
Qed.
Lemma sim_act a c : sim (act a) c [a] (after_ c a).
Proof. split; [reflexivity|]. intros s _. apply same_act. Qed.
Lemma sim_seq m n c l c' k c'' : sim m c l c' -> sim n c' k c'' -> sim (m;; n) c (l ++ k) c''.
Proof.
  intros (E1 & H1) (E2 & H2). split; [rewrite ends_app, E1; exact E2|]. intros s Hs. rewrite perform_app.
  specialize (H1 s Hs). destruct H1 as (P1 & S1). pose proof (perform_ends l s) as D. unfold seq.
  destruct (m s) as (e & s1). destruct (perform l s) as (e' & s1'). cbn [fst snd] in *.
  destruct e as [|x], e' as [|x']; try contradiction.
  - destruct D as [(? & ? & ? & ? & ? & D & _)|(_ & _ & D)]; [discriminate|].
    assert (Q : s1 = s1'). { destruct s1, s1'. cbn in *. now subst. }
    subst s1'. apply H2. rewrite D, Hs. exact E1.
  - split; [exact P1|exact S1].
Qed.
Lemma follows_seq m n c t c' u c'' : follows m c t c' -> follows n c' u c'' -> follows (m;; n) c (t ++ u) c''.
Proof.
  intros (l & S1 & F1) (k & S2 & F2). exists (l ++ k). split; [eapply sim_seq; eauto|].
  rewrite ok_events_app. destruct S1 as (-> & _). unfold steps. rewrite filter_app. now apply Forall2_app.
Qed.
Lemma follows_done c : follows done c [] c.
Proof. exists []. split; [|constructor]. split; [reflexivity|]. intros s _. split; reflexivity. Qed.
Lemma follows_when b m c t : (b = true -> follows m c t c) -> follows (when b m) c (if_ b t) c.
Proof. intros H. destruct b; cbn [when if_]; [now apply H|apply follows_done]. Qed.
Lemma follows_each {A} (l : list A) f c g : (forall a, In a l -> follows (f a) c (g a) c) -> follows (each l f) c (flat_map g l) c.
Proof.
  induction l as [|a l IH]; intros H; [apply follows_done|]. cbn [each flat_map].
  eapply follows_seq; [apply H; now left|]. apply IH. intros b I. apply H. now right.
Qed.
Lemma map_flat {A B} (f : A -> B) l : map f l = flat_map (fun a => [f a]) l.
Proof. induction l as [|a l IH]; [reflexivity|]. cbn. now rewrite IH. Qed.
Lemma follows_map {A} (l : list A) f c g : (forall a, In a l -> follows (f a) c [g a] c) -> follows (each l f) c (map g l) c.
Proof. intros H. rewrite map_flat. now apply follows_each. Qed.
Lemma follows_act a c t : Forall2 does (steps (ok_one c a)) t -> follows (act a) c t (after_ c a).
Proof. intros H. exists [a]. split; [apply sim_act|]. cbn [ok_events]. now rewrite app_nil_r. Qed.
Lemma one e t : counts e = true -> does e t -> Forall2 does (steps [e]) [t].
Proof. intros C D. cbn [steps filter]. unfold steps. cbn [filter]. rewrite C. repeat constructor. exact D. Qed.
Lemma follows_cd p c : follows (cd h p) c [] p.
Proof. apply (follows_act (AOp (Chdir p)) c). constructor. Qed.
Lemma follows_rm p c : follows (rm_f h p) c [Remove p] c.
Proof. apply (follows_act (AOp (RmF p)) c). now apply one. Qed.
Lemma follows_mk p c : follows (mkdir_p h p) c [Make p] c.
Proof. apply (follows_act (AOp (MkdirP p)) c). now apply one. Qed.
Lemma follows_cp a b c : follows (cp h a b) c [CopyFile a b] c.
Proof. apply (follows_act (AOp (Copy a b)) c). now apply one. Qed.
Lemma follows_cp_r a b c : follows (cp_r h a b) c [CopyDir a b] c.
Proof. apply (follows_act (AOp (CopyTree a b)) c). now apply one. Qed.
Lemma follows_call cmd ws c : splits cmd ws -> follows (call h cmd) c [Run c ws] c.
Proof. intros H. apply (follows_act (ARun cmd) c). apply one; [reflexivity|]. exists cmd. auto. Qed.
Lemma follows_text cmd c : follows (call h cmd) c [RunText c cmd] c.
Proof. apply (follows_act (ARun cmd) c). now apply one. Qed.
Lemma follows_show cmd f ws c : splits cmd ws ->
  follows (subprocess_call h cmd (fun code => fileop_ h (ShowFile f);; if (code =? 0)%Z then done else sys_exit code)) c [Run c ws; Show f] c.
Proof. intros H. apply (follows_act (AShow cmd f) c). repeat constructor. exists cmd. auto. Qed.
Lemma sim_ext m n c l c' : (forall s, p_cwd s = c -> m s = n s) -> sim n c l c' -> sim m c l c'.
Proof. intros E (N & H). split; [exact N|]. intros s Hs. rewrite (E s Hs). now apply H. Qed.
Lemma follows_ext m n c t c' : (forall s, p_cwd s = c -> m s = n s) -> follows n c t c' -> follows m c t c'.
Proof. intros E (l & S1 & F). exists l. split; [|exact F]. eapply sim_ext; eauto. Qed.
Lemma follows_absent p m c t c' : follows m c t c' -> follows (if_dir h p (sys_exit 1) m) c (Absent p :: t) c'.
Proof.
  intros H. apply (follows_ext _ (act (ANot p);; m)).
  - intros s _. cbn [act]. unfold seq, if_dir. destruct (did h (IsDir p) s) as ([|] & s1); reflexivity.
  - apply (follows_seq _ _ c [Absent p] c t); [|exact H]. apply (follows_act (ANot p) c). now apply one.
Qed.
Lemma follows_back m c t c' : follows m c t c' -> follows (and_back h m) c t c.
Proof.
  intros H. apply (follows_ext _ (m;; cd h c)).
  - intros s Hs. unfold and_back. now rewrite Hs.
  - rewrite <- (app_nil_r t). eapply follows_seq; [exact H|apply follows_cd].
Qed.
Lemma follows_child cmd m c t : child h c cmd = Some m -> follows m c t c -> follows (call_any h cmd) c t c.
Proof.
  intros E (l & (N & H) & F). exists l. split; [|exact F]. split; [exact N|]. intros s Hs. specialize (H s Hs). destruct H as (P & K).
  pose proof (perform_ends l s) as D. unfold call_any. rewrite Hs, E. destruct (m s) as (e & s1). destruct (perform l s) as (e' & s1'). cbn [fst snd] in *.
  destruct e as [|x], e' as [|x']; try contradiction; cbn [exit_status].
  - destruct D as [(? & ? & ? & ? & ? & D & _)|(_ & _ & D)]; [discriminate|]. split; [exact P|]. cbn. rewrite D, Hs, N. reflexivity.
  - destruct K as (K & Z0). apply Z.eqb_neq in Z0 as Z1. rewrite Z1. split; [exact P|]. cbn. rewrite Z.mod_mod by lia. split; [exact K|exact Z0].
Qed.
Lemma follows_other cmd ws c : child h c cmd = None -> splits cmd ws -> follows (call_any h cmd) c [Run c ws] c.
Proof.
  intros E H. apply (follows_ext _ (call h cmd)); [|now apply follows_call]. intros s Hs. unfold call_any. now rewrite Hs, E.
Qed.
End Ci.

(** *** Words of commands *)
Lemma parts_word w : plain w -> blank_parts w = [w].
Proof.
  intros (N & P). clear N. induction w as [|c w IH]; [reflexivity|]. cbn [blank_parts].
  destruct (ascii_eqb c " "%char) eqn:E; [apply ascii_eqb_eq in E as ->; destruct (P " "%char (or_introl eq_refl)); now left|].
  rewrite IH; [reflexivity|]. intros x I. apply P. now right.
Qed.
Lemma parts_more w t : plain w -> blank_parts (w ++ " "%char :: t) = w :: blank_parts t.
Proof.
  intros (N & P). clear N. induction w as [|c w IH]; [reflexivity|]. cbn [app blank_parts].
  destruct (ascii_eqb c " "%char) eqn:E; [apply ascii_eqb_eq in E as ->; destruct (P " "%char (or_introl eq_refl)); now left|].
  rewrite IH; [reflexivity|]. intros x I. apply P. now right.
Qed.
Lemma words_splits cmd ws : splits cmd ws -> words cmd = ws.
Proof.
  unfold words. induction 1 as [|cmd ws H IH|w P|w cmd ws P H IH|cmd ws H IH].
  - reflexivity.
  - exact IH.
  - rewrite (parts_word w P). destruct P as (N & _). destruct w; [contradiction|reflexivity].
  - rewrite (parts_more w cmd P). cbn [filter]. rewrite IH. destruct P as (N & _). destruct w; [contradiction|reflexivity].
  - cbn [blank_parts filter]. change (ascii_eqb ">"%char " "%char) with false. change (ascii_eqb " "%char " "%char) with true. cbn [is_nil negb filter]. rewrite IH. reflexivity.
Qed.
Lemma digits_value_spec ds n : Forall (fun c => isdigit c = true) ds ->
  digits_value ds n = Some (n * 10 ^ Z.of_nat (length ds) + value_of_digits ds)%Z.
Proof.
  intros F. revert n. induction F as [|c ds D F IH]; intros n; [cbn; f_equal; lia|].
  cbn [digits_value]. rewrite D, IH. f_equal. cbn [length value_of_digits]. rewrite Nat2Z.inj_succ, Z.pow_succ_r by lia. ring.
Qed.
Lemma int_of_show z : int_of (show_Z z) = Some z.
Proof.
  unfold show_Z. destruct (z <? 0)%Z eqn:E.
  - apply Z.ltb_lt in E. destruct (show_nonneg_spec (- z)) as (A & B & C); [lia|]. cbn [int_of app]. change (ascii_eqb "-"%char "-"%char) with true. cbv iota.
    destruct (show_nonneg (- z)) as [|c r] eqn:R; [contradiction|]. rewrite (digits_value_spec _ 0 B), C. cbn [option_map]. f_equal. lia.
  - apply Z.ltb_ge in E. destruct (show_nonneg_spec z) as (A & B & C); [lia|]. pose proof (digits_value_spec _ 0 B) as D. rewrite C in D.
    unfold int_of. destruct (show_nonneg z) as [|c r] eqn:R; [contradiction|].
    destruct (ascii_eqb c "-"%char) eqn:M; [|rewrite D; f_equal; lia]. apply ascii_eqb_eq in M as ->. inversion B as [|? ? X _]. discriminate X.
Qed.
Lemma is_value_show z : is_value (show_Z z) = true.
Proof. unfold is_value. rewrite int_of_show. now destruct (option_name (show_Z z)). Qed.

(** *** ci follows the plan *)
Definition sane (h : host) : Prop :=
  good_root (h_root h) /\ plain (h_python h) /\ good_root (h_tmp h) /\ (0 < h_cpus h)%Z
  /\ forall past cwd cmd, (-256 < h_run h past cwd cmd < 256)%Z.
Definition jobs (h : host) (a : ciargs) : Z := if (c_j a =? 0)%Z then h_cpus h else c_j a.

Section Follows.
Variable h : host.
Hypothesis Sane : sane h.
Let root := h_root h.
Let Root : good_root root := proj1 Sane.
Let Codes : forall past cwd cmd, (-256 < h_run h past cwd cmd < 256)%Z := proj2 (proj2 (proj2 (proj2 Sane))).
Variable j : Z.
Hypothesis J : j <> 0%Z.
Notation follows := (follows h).
Let llvm := under root $"build/llvm-install".
Let scripts := under root $"oclint-scripts".

Lemma llvm_plain : plain llvm.
Proof. apply plain_under; [apply Root|now apply plains_lit]. Qed.
Lemma j_given n : n <> 0%Z -> n = (if (n =? 0)%Z then h_cpus h else n).
Proof. intros N. apply Z.eqb_neq in N. now rewrite N. Qed.
Lemma follows_ninja c : follows (ninja h j) c [Run c (with_jobs $"ninja" j)] c.
Proof.
  unfold ninja. apply Z.eqb_neq in J as J'. rewrite J'. apply follows_call; [exact Codes|]. apply jobs_words; [now apply plain_lit|now apply j_given].
Qed.
Lemma follows_make c : follows (make h j) c [Run c (with_jobs $"make" j)] c.
Proof. apply follows_call; [exact Codes|]. apply jobs_words; [now apply plain_lit|now apply j_given]. Qed.

Lemma follows_build_module m rel c : In m modules -> follows (build_module h m (clang_install_dir h) rel false false j) c (build_it root j rel m) c.
Proof.
  intros I. unfold build_module, build_it. cbv zeta. apply (follows_back h Codes) with (c' := built_in root m).
  rewrite !(built_at h Root m).
  apply (follows_seq h Codes _ _ c [Make _] c [Run _ _; Run _ _]); [now apply follows_mk|].
  apply (follows_seq h Codes _ _ c [] (built_in root m) [Run _ _; Run _ _]); [now apply follows_cd|].
  apply (follows_seq h Codes _ _ _ [Run _ _] (built_in root m) [Run _ _]); [|apply follows_ninja].
  apply follows_call; [exact Codes|]. rewrite (llvm_at h Root). apply (build_words h Root llvm m rel false false llvm_plain I).
Qed.
Lemma under_under a b c : under (under a b) c = under a (b ++ $"/" ++ c).
Proof. unfold under. now rewrite <- !app_assoc. Qed.
Lemma join_under a n k : n <> [] -> (forall r, n <> r ++ $"/") -> pjoin (under a n) k = under (under a n) k.
Proof. intros N E. apply pjoin_under; [unfold under; destruct a; discriminate|now apply no_end]. Qed.
Lemma tested_end m : pjoin (tested_in root m) $"testresults.txt" = under (tested_in root m) $"testresults.txt".
Proof.
  apply join_under; [discriminate|]. intros r E. rewrite app_assoc in E. change $"-test" with ($"-tes" ++ $"t") in E. rewrite !app_assoc in E.
  apply app_inj_tail in E as (_ & E). discriminate E.
Qed.
Lemma module_end pre m : In m modules -> pre ++ m <> [] /\ forall r, pre ++ m <> r ++ $"/".
Proof.
  intros I. assert (K : exists n c, m = n ++ [c] /\ c <> "/"%char).
  { apply in_modules in I as [->|[->|[->|[->| ->]]]];
      [exists $"cor", "e"%char|exists $"metric", "s"%char|exists $"rule", "s"%char|exists $"reporter", "s"%char|exists $"drive", "r"%char]; (split; [reflexivity|discriminate]). }
  destruct K as (n & c & -> & N). split; [destruct pre, n; discriminate|]. intros r E. rewrite app_assoc in E. apply app_inj_tail in E as (_ & E). contradiction.
Qed.
Lemma checked_end m k : pjoin (checked_in root m) k = under (checked_in root m) k.
Proof.
  apply join_under; [discriminate|]. intros r E. change $"-dogfooding" with ($"-dogfoodin" ++ $"g") in E. rewrite !app_assoc in E.
  apply app_inj_tail in E as (_ & E). discriminate E.
Qed.
Lemma source_end m k : In m modules -> pjoin (source root m) k = under (source root m) k.
Proof. intros I. apply join_under; now apply module_end. Qed.
Lemma tested_plain m : In m modules -> plain (under (tested_in root m) $"testresults.txt").
Proof. intros I. apply plain_under; [|now apply plains_lit]. now apply (dirs_plain h Root m). Qed.
Lemma checked_plain m k : In m modules -> plains k -> plain (under (checked_in root m) k).
Proof. intros I P. apply plain_under; [|exact P]. now apply (dirs_plain h Root m). Qed.

Lemma follows_ctest m : In m modules ->
  follows (run_ctest h m) (tested_in root m) [Run (tested_in root m) (run_tests root m); Show (under (tested_in root m) $"testresults.txt")] (tested_in root m).
Proof.
  intros I. unfold run_ctest, display_test_result, test_result_path. rewrite (tested_at h Root m), tested_end.
  apply follows_show; [exact Codes|].
  change ($"ctest --output-on-failure > " ++ under (tested_in root m) $"testresults.txt")
    with ($"ctest" ++ " "%char :: $"--output-on-failure" ++ " "%char :: ">"%char :: " "%char :: under (tested_in root m) $"testresults.txt").
  unfold run_tests. apply sp_word; [now apply plain_lit|]. apply sp_word; [now apply plain_lit|]. apply sp_into. apply sp_last. now apply tested_plain.
Qed.
Lemma follows_headers c : follows (install_clang_headers_to_tmp h) c
  [Remove (under (h_tmp h) $"oclint-rules-test/clang"); CopyDir (under llvm $"lib/clang/21/include") (under (h_tmp h) $"oclint-rules-test/clang")] c.
Proof.
  unfold install_clang_headers_to_tmp. cbv zeta. rewrite (llvm_at h Root). change (under (h_root h) $"build/llvm-install") with llvm.
  assert (E : pjoin (pjoin (pjoin (pjoin llvm $"lib") $"clang") $"21") $"include" = under llvm $"lib/clang/21/include").
  { unfold llvm. do 4 (rewrite join_under by (now apply no_end_lit); rewrite under_under). rewrite under_under. now rewrite <- !app_assoc. }
  assert (T : pjoin (pjoin (h_tmp h) $"oclint-rules-test") $"clang" = under (h_tmp h) $"oclint-rules-test/clang").
  { rewrite (root_under (h_tmp h)) by apply Sane. rewrite join_under by (now apply no_end_lit). now rewrite under_under. }
  rewrite E, T. apply (follows_seq h Codes _ _ c [Remove _] c [CopyDir _ _]); [now apply follows_rm|now apply follows_cp_r].
Qed.
Lemma follows_test_module m c : In m modules -> follows (test_module h m (clang_install_dir h) false false j) c (test_it root (h_tmp h) j m) c.
Proof.
  intros I. unfold test_module, test_it. cbv zeta. apply (follows_back h Codes) with (c' := tested_in root m).
  rewrite !(tested_at h Root m). cbn [app negb when].
  apply (follows_seq h Codes _ _ c [Make _] c (Run _ _ :: Run _ _ :: _)); [now apply follows_mk|].
  apply (follows_seq h Codes _ _ c [] (tested_in root m) (Run _ _ :: Run _ _ :: _)); [now apply follows_cd|].
  apply (follows_seq h Codes _ _ _ [Run _ _] (tested_in root m) (Run _ _ :: _)).
  { apply follows_call; [exact Codes|]. rewrite (llvm_at h Root). apply (test_words h Root llvm m false false llvm_plain I). }
  apply (follows_seq h Codes _ _ _ [Run _ _] (tested_in root m)); [apply follows_ninja|].
  apply (follows_seq h Codes _ _ _ _ (tested_in root m)); [|now apply follows_ctest].
  apply follows_when. intros _. apply follows_headers.
Qed.
Lemma follows_dogfooding m c : In m modules ->
  follows (rm_f h (oclint_module_dogfooding_dir h m);; dogfooding_build h m (clang_install_dir h);; dogfooding h m true) c (check_it root m) c.
Proof.
  intros I. unfold dogfooding_build, dogfooding, check_it, display_result, result_path, bundle_dir. cbv zeta.
  rewrite !(checked_at h Root m), !(source_at h Root m), !checked_end, !source_end by exact I.
  apply (follows_seq h Codes _ _ c [Remove _] c (Make _ :: _)); [now apply follows_rm|].
  apply (follows_seq h Codes _ _ c [Make _; Run _ _; CopyFile _ _] c [Run _ _; Show _]).
  - apply (follows_seq h Codes _ _ c [Make _; Run _ _] c [CopyFile _ _]); [|now apply follows_cp].
    apply (follows_back h Codes) with (c' := checked_in root m).
    apply (follows_seq h Codes _ _ c [Make _] c [Run _ _]); [now apply follows_mk|].
    apply (follows_seq h Codes _ _ c [] (checked_in root m) [Run _ _]); [now apply follows_cd|].
    apply follows_call; [exact Codes|]. rewrite (llvm_at h Root). rewrite <- (source_at h Root m). apply (check_words h Root llvm m llvm_plain I).
  - apply (follows_back h Codes) with (c' := source root m).
    apply (follows_seq h Codes _ _ c [] (source root m) [Run _ _; Show _]); [now apply follows_cd|].
    apply follows_show; [exact Codes|].
    rewrite (built_at h Root $"release"). unfold built_in. fold root.
    rewrite !(join_under root) by (now apply no_end_lit). rewrite (under_under root), join_under, under_under by (now apply no_end_lit).
    match goal with |- splits (((?x ++ ?y) ++ ?z) ++ $" -o " ++ ?f) _ =>
      replace (((x ++ y) ++ z) ++ $" -o " ++ f) with
       (x ++ " "%char :: $"--" ++ " "%char :: $"-max-priority-1=0" ++ " "%char :: $"-max-priority-2=0" ++ " "%char :: $"-max-priority-3=0" ++ " "%char :: $"-enable-clang-static-analyzer" ++ " "%char :: $"-o" ++ " "%char :: f)
       by (rewrite <- !app_assoc; reflexivity) end.
    unfold run_check. cbn [app if_]. apply sp_word; [apply plain_under; [apply Root|now apply plains_lit]|].
    do 6 (apply sp_word; [now apply plain_lit|]). apply sp_last. apply checked_plain; [exact I|now apply plains_lit].
Qed.

(** The commands with which ci runs the scripts. *)
Lemma python_splits rest ws : splits rest ws -> splits (python h rest) (h_python h :: ws).
Proof. intros H. apply sp_word; [apply Sane|exact H]. Qed.
Lemma flag_splits cmd ws : splits cmd ws -> splits (cmd ++ j_flag h j) (ws ++ [$"-j"; show_Z j]).
Proof.
  intros H. unfold j_flag. rewrite <- (j_given j J). replace (cmd ++ $" -j " ++ show_Z j) with (cmd ++ " "%char :: ($"-j" ++ " "%char :: show_Z j)) by reflexivity.
  apply splits_app; [exact H|]. apply sp_word; [now apply plain_lit|]. apply sp_last, plain_show.
Qed.
Lemma child_is cmd name argv f : splits cmd (h_python h :: name :: argv) -> script h name = Some f -> child h scripts cmd = Some (f argv).
Proof.
  intros H E. unfold child. rewrite (words_splits _ _ H). rewrite (scripts_at h Root). change (under (h_root h) $"oclint-scripts") with scripts. rewrite !str_eqb_refl. cbn [andb]. now rewrite E.
Qed.
Lemma child_not cmd name argv : splits cmd (h_python h :: name :: argv) -> script h name = None -> child h scripts cmd = None.
Proof. intros H E. unfold child. rewrite (words_splits _ _ H). destruct (_ && _); [now rewrite E|reflexivity]. Qed.
Lemma child_elsewhere cmd c : c <> scripts -> child h c cmd = None.
Proof.
  intros N. unfold child. destruct (words cmd) as [|w [|v ws]]; try reflexivity. rewrite (scripts_at h Root). change (under (h_root h) $"oclint-scripts") with scripts.
  destruct (str_eqb c scripts) eqn:E; [apply str_eqb_eq in E; contradiction|]. now rewrite andb_false_r.
Qed.
Lemma root_not_scripts : root <> scripts.
Proof. intros E. apply (f_equal (@length _)) in E. unfold scripts, under in E. rewrite !app_length in E. change (length $"/") with 1 in E. lia. Qed.

Lemma follows_build (rel : bool) c : follows (build_script h ((if rel then [$"-clean"; $"-release"] else [$"-clean"]) ++ [$"-j"; show_Z j])) c
  (map (fun m => Remove (built_in root m)) modules ++ flat_map (build_it root j rel) modules) c.
Proof.
  assert (P : exists p, parse [$"docgen"; $"release"; $"clean"; $"no-ninja"] [$"j"; $"llvm-root"] ((if rel then [$"-clean"; $"-release"] else [$"-clean"]) ++ [$"-j"; show_Z j]) = Some p
     /\ build_modules p = Some OCLINT_MODULES /\ int_value $"j" p = Some j /\ given $"clean" p = true /\ given $"release" p = rel
     /\ given $"no-ninja" p = false /\ given $"docgen" p = false /\ value $"llvm-root" (clang_install_dir h) p = clang_install_dir h).
  { exists {| a_flags := if rel then [$"clean"; $"release"] else [$"clean"]; a_values := [($"j", show_Z j)]; a_words := [] |}.
    pose proof (is_value_show j) as V. pose proof (int_of_show j) as W. destruct rel; (split; [generalize dependent (show_Z j); intros v V _; cbv -[is_value]; rewrite V; reflexivity|]);
      (split; [reflexivity|]); (split; [exact W|]); repeat split. }
  destruct P as (p & E & E1 & E2 & E3 & E4 & E5 & E6 & E7). unfold build_script. rewrite E, E1, E2, E3, E4, E5, E6, E7.
  apply (follows_seq h Codes _ _ c _ c).
  - cbn [when]. apply follows_map; [exact Codes|]. intros m I. rewrite (built_at h Root m). now apply follows_rm.
  - apply follows_each; [exact Codes|]. intros m I. now apply follows_build_module.
Qed.
Lemma follows_tests c : follows (test_script h [$"-clean"; $"-j"; show_Z j]) c
  (map (fun m => Remove (tested_in root m)) modules ++ flat_map (test_it root (h_tmp h) j) modules) c.
Proof.
  assert (P : exists p, parse [$"show"; $"clean"; $"as-dep"; $"no-ninja"] [$"j"; $"llvm-root"] [$"-clean"; $"-j"; show_Z j] = Some p
     /\ build_modules p = Some OCLINT_MODULES /\ int_value $"j" p = Some j /\ given $"show" p = false /\ given $"clean" p = true /\ given $"as-dep" p = false
     /\ given $"no-ninja" p = false /\ value $"llvm-root" (clang_install_dir h) p = clang_install_dir h).
  { exists {| a_flags := [$"clean"]; a_values := [($"j", show_Z j)]; a_words := [] |}.
    pose proof (is_value_show j) as V. pose proof (int_of_show j) as W. split; [generalize dependent (show_Z j); intros v V _; cbv -[is_value]; rewrite V; reflexivity|].
    split; [reflexivity|]. split; [exact W|]. repeat split. }
  destruct P as (p & E & E1 & E2 & E3 & E4 & E5 & E6 & E7). unfold test_script. rewrite E, E1, E2, E3, E4, E5, E6, E7.
  apply (follows_seq h Codes _ _ c _ c).
  - cbn [when]. apply follows_map; [exact Codes|]. intros m I. rewrite (tested_at h Root m). now apply follows_rm.
  - apply follows_each; [exact Codes|]. intros m I. now apply follows_test_module.
Qed.
Lemma follows_checks c : follows (dogfooding_script h [$"-enable-clang-static-analyzer"]) c (flat_map (check_it root) modules) c.
Proof.
  assert (E : dogfooding_script h [$"-enable-clang-static-analyzer"] =
    each OCLINT_MODULES (fun m => rm_f h (oclint_module_dogfooding_dir h m);; dogfooding_build h m (clang_install_dir h);; dogfooding h m true)) by reflexivity.
  rewrite E. apply follows_each; [exact Codes|]. intros m I. now apply follows_dogfooding.
Qed.
Lemma follows_checkout c : follows (googletest_script h [$"co"]) c
  [Absent (under root $"googletest"); Run root [$"git"; $"clone"; $"https://github.com/google/googletest.git"; $"googletest"]] c.
Proof.
  assert (E : googletest_script h [$"co"] = if_dir h (googletest_dir h) (sys_exit 1)
    (and_back h (cd h (h_root h);; call h ($"git clone https://github.com/google/googletest.git googletest")))) by reflexivity.
  rewrite E, (gtest_at h Root). apply follows_absent; [exact Codes|]. apply (follows_back h Codes) with (c' := root).
  apply (follows_seq h Codes _ _ c [] root [Run _ _]); [now apply follows_cd|]. apply follows_call; [exact Codes|].
  change $"git clone https://github.com/google/googletest.git googletest" with ($"git" ++ " "%char :: $"clone" ++ " "%char :: $"https://github.com/google/googletest.git" ++ " "%char :: $"googletest").
  do 3 (apply sp_word; [now apply plain_lit|]). apply sp_last. now apply plain_lit.
Qed.
Definition gtest_cmake (mac : bool) : str :=
  $"cmake " ++ (if mac then $"-D CMAKE_CXX_FLAGS=""-std=c++11 -stdlib=libc++ ${CMAKE_CXX_FLAGS}"" " else []) ++ under root $"googletest".
Lemma follows_gtest c : follows (googletest_script h [$"build"; $"-clean"; $"-j"; show_Z j]) c
  [Remove (under root $"build/googletest/lib"); Make (under root $"build/googletest/lib");
   RunText (under root $"build/googletest/lib") (gtest_cmake (is_darwin h)); Run (under root $"build/googletest/lib") (with_jobs $"make" j)] c.
Proof.
  assert (P : exists p, parse [$"clean"] [$"j"; $"llvm-root"] [$"build"; $"-clean"; $"-j"; show_Z j] = Some p
     /\ a_words p = [$"build"] /\ int_value $"j" p = Some j /\ given $"clean" p = true).
  { exists {| a_flags := [$"clean"]; a_values := [($"j", show_Z j)]; a_words := [$"build"] |}.
    pose proof (is_value_show j) as V. pose proof (int_of_show j) as W. split; [generalize dependent (show_Z j); intros v V _; cbv -[is_value]; rewrite V; reflexivity|].
    split; [reflexivity|]. split; [exact W|]. repeat split. }
  destruct P as (p & E & E1 & E2 & E3). unfold googletest_script. rewrite E, E1, E2, E3.
  change (mem $"build" [$"checkout"; $"co"]) with false. change (mem $"build" [$"update"; $"up"]) with false. change (str_eqb $"build" $"build") with true. cbv iota. cbn [when].
  rewrite !(gtest_build_at h Root). fold root. set (d := under root $"build/googletest/lib").
  apply (follows_seq h Codes _ _ c [Remove _] c [Make _; RunText _ _; Run _ _]); [now apply follows_rm|].
  apply (follows_back h Codes) with (c' := d).
  apply (follows_seq h Codes _ _ c [Make _] c [RunText _ _; Run _ _]); [now apply follows_mk|].
  apply (follows_seq h Codes _ _ c [] d [RunText _ _; Run _ _]); [now apply follows_cd|].
  apply (follows_seq h Codes _ _ d [RunText _ _] d [Run _ _]); [|apply follows_make].
  assert (Q : googletest_command h = gtest_cmake (is_darwin h)).
  { unfold googletest_command, gtest_cmake. rewrite (gtest_at h Root). fold root. now destruct (is_darwin h). }
  rewrite Q. now apply follows_text.
Qed.
End Follows.

Section Whole.
Variable h : host.
Variable a : ciargs.
Hypothesis Sane : sane h.
Let root := h_root h.
Let Root : good_root root := proj1 Sane.
Let Codes : forall past cwd cmd, (-256 < h_run h past cwd cmd < 256)%Z := proj2 (proj2 (proj2 (proj2 Sane))).
Let j := jobs h a.
Let scripts := under root $"oclint-scripts".
Lemma jobs_nonzero : j <> 0%Z.
Proof.
  unfold j, jobs. destruct (c_j a =? 0)%Z eqn:E; [|now apply Z.eqb_neq]. pose proof (proj1 (proj2 (proj2 (proj2 Sane)))) as C. lia.
Qed.
Lemma flag_of_jobs : j_flag h (c_j a) = j_flag h j.
Proof. unfold j_flag. rewrite <- (j_given h j jobs_nonzero). reflexivity. Qed.
Lemma follows_ci : c_reset a = false ->
  follows h (ci h a) scripts (plan root (h_python h) (h_tmp h) (is_darwin h) (is_unix h) j (c_setup a) (c_release a) (c_archive a)) scripts.
Proof.
  intros R. unfold ci. rewrite R, !flag_of_jobs. unfold plan.
  assert (Py : forall rest ws name argv, splits rest ws -> ws = name :: argv -> script h name = None ->
     follows h (call_any h (python h rest)) scripts [Run scripts (h_python h :: ws)] scripts).
  { intros rest ws name argv H -> N. apply follows_other; [exact Codes| |now apply python_splits]. apply (child_not h _ name argv); [now apply python_splits|exact N]. }
  apply (follows_seq h Codes _ _ scripts _ scripts).
  { apply follows_when. intros _. unfold set_up. rewrite app_assoc.
    assert (G : forall url w, url = $"git clone " ++ w -> plain w -> follows h (call_any h url) root [Run root [$"git"; $"clone"; w]] root).
    { intros url w -> P. apply follows_other; [exact Codes|apply (child_elsewhere h Sane), (root_not_scripts h)|].
      change ($"git clone " ++ w) with ($"git" ++ " "%char :: $"clone" ++ " "%char :: w). do 2 (apply sp_word; [now apply plain_lit|]). now apply sp_last. }
    apply (follows_seq h Codes _ _ scripts _ scripts).
    - apply (follows_back h Codes) with (c' := root).
      apply (follows_seq h Codes _ _ scripts [] root); [now apply follows_cd|].
      apply (follows_seq h Codes _ _ root [Run _ _] root); [apply G; [reflexivity|now apply plain_lit]|].
      apply follows_when. intros _. apply G; [reflexivity|now apply plain_lit].
    - apply (follows_seq h Codes _ _ scripts [Run _ _] scripts); [apply (Py _ [$"clang"] $"clang" []); [apply sp_last; now apply plain_lit|reflexivity|reflexivity]|].
      apply follows_when. intros _.
      apply (follows_seq h Codes _ _ scripts [Absent _; Run _ _] scripts [Remove _; Make _; RunText _ _; Run _ _]).
      + apply (follows_child h Codes _ (googletest_script h [$"co"])); [|now apply follows_checkout].
        apply (child_is h Sane _ $"googleTest"); [|reflexivity]. apply (python_splits h Sane).
        change $"googleTest co" with ($"googleTest" ++ " "%char :: $"co"). apply sp_word; [now apply plain_lit|]. apply sp_last. now apply plain_lit.
      + apply (follows_child h Codes _ (googletest_script h [$"build"; $"-clean"; $"-j"; show_Z j])); [|apply (follows_gtest h Sane j jobs_nonzero)].
        apply (child_is h Sane _ $"googleTest"); [|reflexivity].
        apply (flag_splits h j jobs_nonzero _ [h_python h; $"googleTest"; $"build"; $"-clean"]). apply (python_splits h Sane).
        change $"googleTest build -clean" with ($"googleTest" ++ " "%char :: $"build" ++ " "%char :: $"-clean"). do 2 (apply sp_word; [now apply plain_lit|]). apply sp_last. now apply plain_lit. }
  apply (follows_seq h Codes _ _ scripts _ scripts).
  { destruct (c_release a).
    - apply (follows_child h Codes _ (build_script h ([$"-clean"; $"-release"] ++ [$"-j"; show_Z j]))); [|apply (follows_build h Sane j jobs_nonzero true)].
      apply (child_is h Sane _ $"build"); [|reflexivity].
      apply (flag_splits h j jobs_nonzero _ [h_python h; $"build"; $"-clean"; $"-release"]). apply (python_splits h Sane).
      change $"build -clean -release" with ($"build" ++ " "%char :: $"-clean" ++ " "%char :: $"-release"). do 2 (apply sp_word; [now apply plain_lit|]). apply sp_last. now apply plain_lit.
    - rewrite (app_assoc (map (fun m => Remove (tested_in root m)) modules)). apply (follows_seq h Codes _ _ scripts _ scripts).
      + apply (follows_child h Codes _ (test_script h [$"-clean"; $"-j"; show_Z j])); [|apply (follows_tests h Sane j jobs_nonzero)].
        apply (child_is h Sane _ $"test"); [|reflexivity].
        apply (flag_splits h j jobs_nonzero _ [h_python h; $"test"; $"-clean"]). apply (python_splits h Sane).
        change $"test -clean" with ($"test" ++ " "%char :: $"-clean"). apply sp_word; [now apply plain_lit|]. apply sp_last. now apply plain_lit.
      + apply (follows_child h Codes _ (build_script h ([$"-clean"] ++ [$"-j"; show_Z j]))); [|apply (follows_build h Sane j jobs_nonzero false)].
        apply (child_is h Sane _ $"build"); [|reflexivity].
        apply (flag_splits h j jobs_nonzero _ [h_python h; $"build"; $"-clean"]). apply (python_splits h Sane).
        change $"build -clean" with ($"build" ++ " "%char :: $"-clean"). apply sp_word; [now apply plain_lit|]. apply sp_last. now apply plain_lit. }
  apply (follows_seq h Codes _ _ scripts [Run _ _] scripts); [apply (Py _ [$"bundle"] $"bundle" []); [apply sp_last; now apply plain_lit|reflexivity|reflexivity]|].
  apply (follows_seq h Codes _ _ scripts _ scripts).
  { apply follows_when. intros _. apply (follows_child h Codes _ (dogfooding_script h [$"-enable-clang-static-analyzer"])); [|now apply follows_checks].
    apply (child_is h Sane _ $"dogFooding"); [|reflexivity]. apply (python_splits h Sane).
    change $"dogFooding -enable-clang-static-analyzer" with ($"dogFooding" ++ " "%char :: $"-enable-clang-static-analyzer"). apply sp_word; [now apply plain_lit|]. apply sp_last. now apply plain_lit. }
  apply follows_when. intros _. destruct (c_release a).
  - apply (Py _ [$"bundle"; $"-archive"; $"-release"] $"bundle" [$"-archive"; $"-release"]); [|reflexivity|reflexivity].
    change $"bundle -archive -release" with ($"bundle" ++ " "%char :: $"-archive" ++ " "%char :: $"-release"). do 2 (apply sp_word; [now apply plain_lit|]). apply sp_last. now apply plain_lit.
  - apply (Py _ [$"bundle"; $"-archive"] $"bundle" [$"-archive"]); [|reflexivity|reflexivity].
    change $"bundle -archive" with ($"bundle" ++ " "%char :: $"-archive"). apply sp_word; [now apply plain_lit|]. apply sp_last. now apply plain_lit.
Qed.
End Whole.

(** *** The theorems *)
Definition ci_run (h : host) (a : ciargs) := ci h a {| p_cwd := under (h_root h) $"oclint-scripts"; p_past := [] |}.
(** what a caller of ci sees, and all that happened, in order *)
Definition status (h : host) (a : ciargs) : Z := exit_status (fst (ci_run h a)).
Definition history (h : host) (a : ciargs) : list event := p_past (snd (ci_run h a)).
Definition system (h : host) (mac unix : bool) : Prop :=
  (mac = true <-> runs_on $"darwin" (h_kernel h)) /\ (unix = true <-> runs_on $"darwin" (h_kernel h) \/ runs_on $"linux" (h_kernel h)).
Definition the_plan (h : host) (a : ciargs) (mac unix : bool) : list todo :=
  plan (h_root h) (h_python h) (h_tmp h) mac unix (jobs h a) (c_setup a) (c_release a) (c_archive a).
Lemma prefix_runs n k : prefixb n (map tolower k) = true <-> runs_on n k.
Proof. unfold runs_on. apply prefixb_spec. Qed.
Lemma system_is h mac unix : system h mac unix -> mac = is_darwin h /\ unix = is_unix h.
Proof.
  intros (A & B). unfold is_unix, is_darwin, is_linux. rewrite <- !prefix_runs in A, B. split; apply eq_true_iff_eq.
  - exact A.
  - rewrite orb_true_iff, (prefix_runs $"linux"). exact B.
Qed.
Lemma ci_follows h a mac unix : sane h -> system h mac unix -> c_reset a = false ->
  exists l, same (ci_run h a) (perform h l {| p_cwd := under (h_root h) $"oclint-scripts"; p_past := [] |})
    /\ Forall2 does (steps (ok_events (under (h_root h) $"oclint-scripts") l)) (the_plan h a mac unix).
Proof.
  intros Sn Y R. destruct (system_is h mac unix Y) as (-> & ->). destruct (follows_ci h a Sn R) as (l & (_ & H) & F). exists l. split; [|exact F]. now apply H.
Qed.
Definition codes (h : host) := forall past cwd cmd, (-256 < h_run h past cwd cmd < 256)%Z.
Lemma sane_codes h : sane h -> codes h.
Proof. intros (_ & _ & _ & _ & C). exact C. Qed.
Lemma same_status r r' : same r r' -> exit_status (fst r) = exit_status (fst r') /\ p_past (snd r) = p_past (snd r').
Proof.
  intros (P & K). split; [|exact P]. destruct (fst r), (fst r'); try contradiction; [reflexivity|]. exact (proj1 K).
Qed.
Lemma ok_fine e td : does e td -> bad e = false.
Proof. destruct td; cbn [does]; [intros (cmd & -> & _)|..]; try intros ->; reflexivity. Qed.
Lemma ok_events_fine c l td : Forall2 does (steps (ok_events c l)) td -> existsb bad (ok_events c l) = false.
Proof.
  intros F. assert (K : forall e, In e (ok_events c l) -> counts e = false -> bad e = false).
  { clear F td. revert c. induction l as [|x l IH]; intros c e I N; [contradiction|]. cbn [ok_events] in I. apply in_app_iff in I as [I|I]; [|eapply IH; eauto].
    destruct x as [cmd|cmd f|op|p]; cbn [ok_one In] in I.
    - destruct I as [<-|[]]. reflexivity.
    - destruct I as [<-|[<-|[]]]; reflexivity.
    - destruct I as [<-|[]]. destruct op; try discriminate N; reflexivity.
    - destruct I as [<-|[]]. reflexivity. }
  destruct (existsb bad (ok_events c l)) eqn:E; [|reflexivity]. apply existsb_exists in E as (e & I & B).
  destruct (counts e) eqn:N; [|rewrite (K e I N) in B; discriminate].
  assert (I2 : In e (steps (ok_events c l))) by (apply filter_In; auto). clear - F I2 B. induction F as [|x t l1 l2 D F IH]; [contradiction|].
  destruct I2 as [->|I2]; [|now apply IH]. apply ok_fine in D. congruence.
Qed.

(** After a run that ends with 0, the steps of the plan were done: all, in order, nothing else, and
    each with success. *)
Theorem c139_green_run : forall h a mac unix, sane h -> system h mac unix -> c_reset a = false ->
  status h a = 0%Z -> Forall2 does (steps (history h a)) (the_plan h a mac unix).
Proof.
  intros h a mac unix Sn Y R Z0. destruct (ci_follows h a mac unix Sn Y R) as (l & Sm & F). destruct (same_status _ _ Sm) as (S1 & S2).
  unfold status in Z0. unfold history. rewrite S2. rewrite S1 in Z0.
  destruct (perform_ends h (sane_codes h Sn) l {| p_cwd := under (h_root h) $"oclint-scripts"; p_past := [] |}) as [(c & evs & l1 & x & l2 & E & _ & _ & Fa)|(E & P & _)].
  - rewrite E in Z0. cbn [exit_status] in Z0. apply failed_code in Fa. contradiction.
  - rewrite P. exact F.
Qed.

Lemma fails_of e e' t : does e t ->
  match e, e' with
  | Ran d cmd _, Ran d' cmd' c => d = d' /\ cmd = cmd' /\ c <> 0%Z
  | Did op ok, Did op' ok' => op = op' /\ ok' = negb ok
  | _, _ => False
  end -> fails e' t.
Proof.
  intros D K. destruct t; cbn [does fails] in *; try (destruct D as (c & -> & D)); try subst e; destruct e' as [d' cmd' c'|op' ok']; try contradiction;
    try (destruct K as (<- & <- & N)); try (destruct K as (<- & ->)); eauto.
Qed.
Lemma forall2_split {A B} (P : A -> B -> Prop) l1 x l2 t : Forall2 P (l1 ++ x :: l2) t -> exists t1 y t2, t = t1 ++ y :: t2 /\ Forall2 P l1 t1 /\ P x y /\ Forall2 P l2 t2.
Proof.
  intros F. apply Forall2_app_inv_l in F as (t1 & t' & F1 & F2 & ->). inversion F2 as [|? y ? t2 D F3]; subst. exists t1, y, t2. auto.
Qed.
(** A run that ends with another code did the first steps of the plan, and then one failed: the
    next one, or the change to a directory.  Nothing was done after that but to show the results
    that the failing command left.  The code is that of the failure. *)
Theorem c139_stops_at_failure : forall h a mac unix, sane h -> system h mac unix -> c_reset a = false -> status h a <> 0%Z ->
  exists before e after done_,
    history h a = before ++ e :: after
    /\ Forall2 does (steps before) done_ /\ existsb bad before = false /\ bad e = true
    /\ ((exists t rest, the_plan h a mac unix = done_ ++ t :: rest /\ fails e t)
        \/ (exists d rest, e = Did (Chdir d) false /\ the_plan h a mac unix = done_ ++ rest))
    /\ ((after = [] /\ status h a = status_of e)
        \/ exists dir cmd code p ok, e = Ran dir cmd code /\ after = [Did (ShowFile p) ok] /\ status h a = (if ok then status_of e else 1%Z)).
Proof.
  intros h a mac unix Sn Y R N. destruct (ci_follows h a mac unix Sn Y R) as (l & Sm & F). destruct (same_status _ _ Sm) as (S1 & S2).
  unfold status in *. unfold history. rewrite S2. rewrite S1 in *. clear Sm S1 S2.
  set (c0 := under (h_root h) $"oclint-scripts") in *. set (s0 := {| p_cwd := c0; p_past := [] |}) in *. set (pl := the_plan h a mac unix) in *.
  destruct (perform_ends h (sane_codes h Sn) l s0) as [(c & evs & l1 & x & l2 & E & L & P & Fa)|(E & P & _)]; [|rewrite E in N; contradiction].
  rewrite E, P in *. clear P. cbn [p_past app p_cwd s0 exit_status] in *. subst l. rewrite ok_events_app in F. unfold steps in F. rewrite filter_app in F. fold (steps (ok_events c0 l1)) in F.
  cbn [ok_events] in F. rewrite filter_app in F. set (d := ends c0 l1) in *. apply Forall2_app_inv_l in F as (t1 & t' & F1 & F2 & PL).
  pose proof (ok_events_fine _ _ _ F1) as B1.
  destruct x as [cmd|cmd f|op|p]; cbn [failed ok_one after_] in *.
  - destruct Fa as (-> & Nz & _). cbn [filter counts app] in F2. inversion F2 as [|? t ? rest D F3]; subst.
    exists (ok_events c0 l1), (Ran d cmd c), [], t1. split; [reflexivity|]. split; [exact F1|]. split; [exact B1|].
    split; [cbn; apply negb_true_iff; now apply Z.eqb_neq|]. split; [|left; auto].
    left. exists t, rest. split; [exact PL|]. eapply fails_of; [exact D|]. cbn; auto.
  - cbn [filter counts app] in F2. inversion F2 as [|? t ? rest D F3]; subst. inversion F3 as [|? u ? rest2 D2 F4]; subst.
    destruct Fa as [(-> & ->)|(k & ok & -> & Nk & _ & ->)].
    + exists (ok_events c0 l1 ++ [Ran d cmd 0]), (Did (ShowFile f) false), [], (t1 ++ [t]).
      split; [now rewrite <- app_assoc|]. split; [unfold steps; rewrite filter_app; apply Forall2_app; [exact F1|now repeat constructor]|].
      split; [rewrite existsb_app, B1; reflexivity|]. split; [reflexivity|]. split; [|left; auto].
      left. exists u, rest2. split; [rewrite <- app_assoc; exact PL|]. eapply fails_of; [exact D2|]. cbn; auto.
    + exists (ok_events c0 l1), (Ran d cmd k), [Did (ShowFile f) ok], t1. split; [reflexivity|]. split; [exact F1|]. split; [exact B1|].
      split; [cbn; apply negb_true_iff; now apply Z.eqb_neq|]. split.
      * left. exists t, (u :: rest2). split; [exact PL|]. eapply fails_of; [exact D|]. cbn; auto.
      * right. exists d, cmd, k, f, ok. split; [reflexivity|]. split; [reflexivity|]. destruct ok; reflexivity.
  - destruct Fa as (-> & ->). exists (ok_events c0 l1), (Did op false), [], t1. split; [reflexivity|]. split; [exact F1|]. split; [exact B1|].
    destruct (counts (Did op true)) eqn:C.
    + cbn [filter] in F2. rewrite C in F2. cbn [app] in F2. inversion F2 as [|? t ? rest D F3]; subst.
      split; [destruct op; try reflexivity; destruct t; cbn [does] in D; try discriminate D; destruct D as (? & D & _); discriminate D|].
      split; [|left; auto]. left. exists t, rest. split; [exact PL|]. eapply fails_of; [exact D|]. cbn; auto.
    + destruct op; try discriminate C. split; [reflexivity|]. split; [|left; auto]. right. exists p, t'. auto.
  - destruct Fa as (-> & ->). cbn [filter counts app] in F2. inversion F2 as [|? t ? rest D F3]; subst.
    exists (ok_events c0 l1), (Did (IsDir p) true), [], t1. split; [reflexivity|]. split; [exact F1|]. split; [exact B1|].
    split; [reflexivity|]. split; [|left; auto]. left. exists t, rest. split; [exact PL|]. eapply fails_of; [exact D|]. cbn; auto.
Qed.

(** -reset runs no program, whatever else is asked for: it removes five directories. *)
Definition reset_removes (root : str) : list str :=
  map (under root) [$"build"; $"llvm"; $"googletest"; $"oclint-json-compilation-database"; $"oclint-xcodebuild"].
Lemma removes_run h ps s :
  let r := (each ps (fun p => rm_f h p);; sys_exit 0) s in
  (exists c, fst r = Exits c /\ (c = 0 \/ c = 1)%Z
   /\ exists did_ rest, ps = did_ ++ rest
      /\ p_past (snd r) = p_past s ++ map (fun p => Did (RmF p) true) did_ ++ (if (c =? 0)%Z then [] else match rest with p :: _ => [Did (RmF p) false] | [] => [] end)
      /\ (c = 0%Z <-> rest = [])).
Proof.
  revert s. induction ps as [|p ps IH]; intros s; cbn zeta.
  - exists 0%Z. split; [reflexivity|]. split; [now left|]. exists [], []. cbn. rewrite app_nil_r. split; [reflexivity|]. split; [reflexivity|]. tauto.
  - set (ok := h_does h (p_past s) (p_cwd s) (RmF p)). set (s1 := {| p_cwd := p_cwd s; p_past := p_past s ++ [Did (RmF p) ok] |}).
    assert (Q0 : (each (p :: ps) (fun p => rm_f h p);; sys_exit 0) s = if ok then (each ps (fun p => rm_f h p);; sys_exit 0) s1 else (Exits 1, s1)).
    { cbn [each]. rewrite seq_assoc. unfold seq at 1. unfold rm_f at 1. unfold fileop_, did. fold ok. destruct ok; reflexivity. }
    rewrite Q0. unfold s1 in *. clear Q0. clearbody ok. destruct ok.
    + match goal with |- context [(each ps _;; sys_exit 0) ?s1] => destruct (IH s1) as (c & E1 & C & d & rest & L & P & Q) end.
      exists c. split; [exact E1|]. split; [exact C|]. exists (p :: d), rest. split; [now rewrite L|]. split; [|exact Q].
      rewrite P. cbn [p_past map]. rewrite <- !app_assoc. reflexivity.
    + exists 1%Z. split; [reflexivity|]. split; [now right|]. exists [], (p :: ps). split; [reflexivity|]. split; [reflexivity|]. split; discriminate.
Qed.
Theorem c139_reset : forall h a, good_root (h_root h) -> c_reset a = true ->
  exists removed rest, reset_removes (h_root h) = removed ++ rest
    /\ ((rest = [] /\ status h a = 0%Z /\ history h a = map (fun p => Did (RmF p) true) removed)
        \/ exists p rest', rest = p :: rest' /\ status h a = 1%Z /\ history h a = map (fun p => Did (RmF p) true) removed ++ [Did (RmF p) false]).
Proof.
  intros h a Root R. unfold status, history, ci_run, ci. rewrite R.
  set (s0 := {| p_cwd := under (h_root h) $"oclint-scripts"; p_past := [] |}).
  destruct (removes_run h (reset_removes (h_root h)) s0) as (c & E & C & d & rest & L & P & Q).
  assert (K : forall s, (each (reset_removes (h_root h)) (fun p => rm_f h p);; sys_exit 0) s =
    (rm_f h (build_root h);; rm_f h (module_source_dir h $"llvm");; rm_f h (googletest_dir h);;
     rm_f h (oclint_module_source_dir h $"json-compilation-database");; rm_f h (oclint_module_source_dir h $"xcodebuild");; sys_exit 0) s).
  { intros s. rewrite (build_root_at h Root), (gtest_at h Root), !(source_at h Root). unfold module_source_dir. rewrite (root_under _ $"llvm" Root).
    unfold reset_removes. cbn [map each]. unfold source.
    change ($"oclint-" ++ $"json-compilation-database") with $"oclint-json-compilation-database". change ($"oclint-" ++ $"xcodebuild") with $"oclint-xcodebuild".
    unfold seq. repeat match goal with |- context [rm_f h ?p ?st] => destruct (rm_f h p st) as ([|?] & ?); [|reflexivity] end. reflexivity. }
  rewrite <- K. exists d, rest. split; [exact L|]. rewrite E. cbn [exit_status]. destruct C as [->| ->].
  - left. assert (rest = []) as -> by now apply Q. split; [reflexivity|]. split; [reflexivity|]. rewrite P. cbn. apply app_nil_r.
  - right. destruct rest as [|p rest]; [pose proof (proj2 Q eq_refl) as X; discriminate X|]. exists p, rest. split; [reflexivity|]. split; [reflexivity|]. rewrite P. reflexivity.
Qed.
(** The code is 0 exactly when nothing failed. *)
Theorem c139_code : forall h a, sane h -> (status h a = 0%Z <-> existsb bad (history h a) = false).
Proof.
  intros h a Sn. destruct (c_reset a) eqn:R.
  - destruct (c139_reset h a (proj1 Sn) R) as (d & rest & _ & [(_ & -> & ->)|(p & rest' & _ & -> & ->)]).
    + split; [intros _|reflexivity]. clear. induction d; [reflexivity|exact IHd].
    + split; [discriminate|]. rewrite existsb_app. cbn. rewrite orb_true_r. discriminate.
  - destruct (ci_follows h a (is_darwin h) (is_unix h) Sn) as (l & Sm & F); [split; unfold is_unix, is_darwin, is_linux; rewrite ?orb_true_iff, !prefix_runs; tauto|exact R|].
    destruct (Z.eq_dec (status h a) 0) as [Z0|N].
    + split; [intros _|auto]. destruct (same_status _ _ Sm) as (S1 & S2). unfold status in Z0. unfold history. rewrite S2. rewrite S1 in Z0.
      destruct (perform_ends h (sane_codes h Sn) l {| p_cwd := under (h_root h) $"oclint-scripts"; p_past := [] |}) as [(c & evs & l1 & x & l2 & E & _ & _ & Fa)|(E & P & _)].
      * rewrite E in Z0. cbn [exit_status] in Z0. apply failed_code in Fa. contradiction.
      * rewrite P. exact (ok_events_fine _ _ _ F).
    + split; [contradiction|]. intros B.
      destruct (c139_stops_at_failure h a (is_darwin h) (is_unix h) Sn) as (before & e & after & dn & H & _ & _ & Be & _); [split; unfold is_unix, is_darwin, is_linux; rewrite ?orb_true_iff, !prefix_runs; tauto|exact R|exact N|].
      rewrite H, existsb_app in B. cbn [existsb] in B. rewrite Be, orb_true_r in B. discriminate.
Qed.

(** Every code and answer in the history is what the machine gave at that point. *)
Definition from_machine (h : host) (past : list event) : Prop :=
  forall pre e post, past = pre ++ e :: post ->
    match e with
    | Ran dir cmd code => code = h_run h pre dir cmd
    | Did op ok => exists dir, ok = h_does h pre dir op
    end.
Lemma from_machine_snoc h past e :
  from_machine h past -> match e with Ran dir cmd code => code = h_run h past dir cmd | Did op ok => exists dir, ok = h_does h past dir op end ->
  from_machine h (past ++ [e]).
Proof.
  intros F H pre x post E. destruct (exists_last (l := x :: post) ltac:(discriminate)) as (r & y & R). destruct post as [|z post].
  - apply app_inj_tail in E as (-> & ->). exact H.
  - rewrite R, app_assoc in E. apply app_inj_tail in E as (-> & _). destruct r as [|x' r]; [discriminate R|]. injection R as <- R. now apply (F pre x r).
Qed.
Lemma act_from_machine h a s : from_machine h (p_past s) -> from_machine h (p_past (snd (act h a s))).
Proof.
  intros F. assert (D : forall op t, from_machine h (p_past t) -> from_machine h (p_past (snd (did h op t)))).
  { intros op t Ft. unfold did. cbn [snd p_past]. apply from_machine_snoc; [exact Ft|]. now exists (p_cwd t). }
  destruct a as [cmd|cmd f|op|p]; cbn [act].
  - unfold call, subprocess_call. destruct (_ =? 0)%Z; cbn [done sys_exit snd p_past]; (apply from_machine_snoc; [exact F|reflexivity]).
  - unfold subprocess_call. match goal with |- context [h_run h ?x ?y ?z] => set (c := h_run h x y z) end.
    match goal with |- context [seq _ _ ?t] => assert (Ft : from_machine h (p_past t)) by (apply from_machine_snoc; [exact F|reflexivity]);
      pose proof (D (ShowFile f) t Ft) as G; unfold seq, fileop_; destruct (did h (ShowFile f) t) as ([|] & s1) end; [|exact G].
    destruct (c =? 0)%Z; exact G.
  - pose proof (D op s F) as G. unfold fileop_. destruct (did h op s) as ([|] & s1); exact G.
  - pose proof (D (IsDir p) s F) as G. unfold if_dir. destruct (did h (IsDir p) s) as ([|] & s1); exact G.
Qed.
Lemma perform_from_machine h l s : from_machine h (p_past s) -> from_machine h (p_past (snd (perform h l s))).
Proof.
  revert s. induction l as [|a l IH]; intros s F; [exact F|]. unfold perform. cbn [each]. unfold seq. pose proof (act_from_machine h a s F) as G.
  destruct (act h a s) as ([|c] & s1); [apply (IH s1 G)|exact G].
Qed.
Theorem c139_history_is_true : forall h a, sane h -> from_machine h (history h a).
Proof.
  intros h a Sn. assert (N0 : from_machine h []) by (intros [|y l] x post E; discriminate E).
  destruct (c_reset a) eqn:R.
  - unfold history, ci_run, ci. rewrite R.
    assert (K : forall p m s, from_machine h (p_past s) -> (forall t, from_machine h (p_past t) -> from_machine h (p_past (snd (m t)))) -> from_machine h (p_past (snd ((rm_f h p;; m) s)))).
    { intros p m s F H. unfold seq. pose proof (act_from_machine h (AOp (RmF p)) s F) as G. cbn [act] in G. unfold rm_f. destruct (fileop_ h (RmF p) s) as ([|c] & s1); [now apply H|exact G]. }
    do 5 (apply K; [assumption|]; intros). exact H3.
  - destruct (ci_follows h a (is_darwin h) (is_unix h) Sn) as (l & Sm & _); [split; unfold is_unix, is_darwin, is_linux; rewrite ?orb_true_iff, !prefix_runs; tauto|exact R|].
    unfold history. rewrite (proj2 (same_status _ _ Sm)). now apply perform_from_machine.
Qed.

(** *** What a green run means for each module *)
Lemma filter_split {A} (f : A -> bool) l a x b : filter f l = a ++ x :: b -> exists a' b', l = a' ++ x :: b' /\ filter f a' = a /\ filter f b' = b.
Proof.
  revert a. induction l as [|y l IH]; intros a E; cbn [filter] in E; [destruct a; discriminate|]. destruct (f y) eqn:Fy.
  - destruct a as [|z a]; injection E as -> E.
    + exists [], l. auto.
    + destruct (IH a E) as (a' & b' & -> & F1 & F2). exists (z :: a'), b'. cbn [filter]. rewrite Fy, F1. auto.
  - destruct (IH a E) as (a' & b' & -> & F1 & F2). exists (y :: a'), b'. cbn [filter]. rewrite Fy. auto.
Qed.
Lemma forall2_split_r {A B} (P : A -> B -> Prop) l t1 y t2 : Forall2 P l (t1 ++ y :: t2) -> exists l1 x l2, l = l1 ++ x :: l2 /\ Forall2 P l1 t1 /\ P x y /\ Forall2 P l2 t2.
Proof.
  intros F. apply Forall2_app_inv_r in F as (l1 & l' & F1 & F2 & ->). inversion F2 as [|x ? l2 ? D F3]; subst. exists l1, x, l2. auto.
Qed.
(** [evs] has successful runs of these, in the given directories and in this order. *)
Fixpoint ran_in_order (evs : list event) (l : list (str * list str)) : Prop :=
  match l with
  | [] => True
  | (dir, ws) :: l' => exists before cmd after, evs = before ++ Ran dir cmd 0 :: after /\ splits cmd ws /\ ran_in_order after l'
  end.
(** [todos] has these steps in this order. *)
Fixpoint planned (todos : list todo) (l : list (str * list str)) : Prop :=
  match l with
  | [] => True
  | (dir, ws) :: l' => exists before after, todos = before ++ Run dir ws :: after /\ planned after l'
  end.
Lemma planned_ran l evs td : Forall2 does (steps evs) td -> planned td l -> ran_in_order evs l.
Proof.
  revert evs td. induction l as [|(dir & ws) l IH]; intros evs td F P; [exact I|]. cbn [planned ran_in_order] in *. destruct P as (b & a & -> & P).
  apply forall2_split_r in F as (l1 & x & l2 & E & _ & (cmd & -> & Sp) & F2). apply filter_split in E as (b' & a' & -> & _ & F3).
  exists b', cmd, a'. split; [reflexivity|]. split; [exact Sp|]. apply (IH _ a); [|exact P]. unfold steps. rewrite F3. exact F2.
Qed.
Lemma planned_more x y l : planned y l -> planned (x ++ y) l.
Proof. destruct l as [|(dir & ws) l]; [auto|]. intros (b & a & -> & P). exists (x ++ b), a. split; [now rewrite app_assoc|exact P]. Qed.
Lemma planned_app x y l k : planned x l -> planned y k -> planned (x ++ y) (l ++ k).
Proof.
  revert x. induction l as [|(dir & ws) l IH]; intros x P Q; [now apply planned_more|]. destruct P as (b & a & -> & P).
  exists b, (a ++ y). split; [now rewrite <- app_assoc|]. now apply IH.
Qed.
Lemma planned_pre x y l : planned x l -> planned (x ++ y) l.
Proof. intros P. rewrite <- (app_nil_r l). now apply planned_app. Qed.
Lemma planned_each {A} (f : A -> list todo) l m k : In m l -> planned (f m) k -> planned (flat_map f l) k.
Proof.
  intros I P. induction l as [|x l IH]; [contradiction|]. cbn [flat_map]. destruct I as [->|I]; [now apply planned_pre|]. apply planned_more. now apply IH.
Qed.

(** A green run that is not for a release: every module was configured with its tests, built, its
    tests were run and passed; then it was configured and built for use; then the bundle was made
    of these. *)
Theorem c139_tested : forall h a m, sane h -> c_reset a = false -> c_release a = false -> status h a = 0%Z -> In m modules ->
  ran_in_order (history h a)
    [(tested_in (h_root h) m, configure_tests (h_root h) (under (h_root h) $"build/llvm-install") true true m);
     (tested_in (h_root h) m, with_jobs $"ninja" (jobs h a));
     (tested_in (h_root h) m, run_tests (h_root h) m);
     (built_in (h_root h) m, configure (h_root h) (under (h_root h) $"build/llvm-install") false true false m);
     (built_in (h_root h) m, with_jobs $"ninja" (jobs h a));
     (under (h_root h) $"oclint-scripts", [h_python h; $"bundle"])].
Proof.
  intros h a m Sn R Re Z0 I. assert (Y : system h (is_darwin h) (is_unix h)) by (split; unfold is_unix, is_darwin, is_linux; rewrite ?orb_true_iff, !prefix_runs; tauto).
  apply (planned_ran _ _ _ (c139_green_run h a _ _ Sn Y R Z0)). unfold the_plan, plan. rewrite Re. apply planned_more. rewrite <- !app_assoc.
  apply planned_more. apply (planned_app _ _ [_; _; _] [_; _; _]).
  - apply (planned_each _ _ m); [exact I|]. unfold test_it. apply (planned_app _ _ [_; _] [_]).
    + exists [Make (tested_in (h_root h) m)], [Run (tested_in (h_root h) m) (with_jobs $"ninja" (jobs h a))]. split; [reflexivity|]. exists [], []. split; [reflexivity|exact Logic.I].
    + apply planned_more. exists [], [Show (under (tested_in (h_root h) m) $"testresults.txt")]. split; [reflexivity|exact Logic.I].
  - apply planned_more. apply (planned_app _ _ [_; _] [_]).
    + apply (planned_each _ _ m); [exact I|]. unfold build_it. exists [Make (built_in (h_root h) m)], [Run (built_in (h_root h) m) (with_jobs $"ninja" (jobs h a))].
      split; [reflexivity|]. exists [], []. split; [reflexivity|exact Logic.I].
    + eexists [], _. split; [reflexivity|exact Logic.I].
Qed.
(** On Linux and macOS, the bundle also checked the sources of every module and found nothing. *)
Theorem c139_checked : forall h a m, sane h -> c_reset a = false -> c_release a = false -> status h a = 0%Z -> In m modules ->
  runs_on $"darwin" (h_kernel h) \/ runs_on $"linux" (h_kernel h) ->
  ran_in_order (history h a)
    [(under (h_root h) $"oclint-scripts", [h_python h; $"bundle"]);
     (checked_in (h_root h) m, configure_check (h_root h) (under (h_root h) $"build/llvm-install") m);
     (source (h_root h) m, run_check (h_root h) true m)].
Proof.
  intros h a m Sn R Re Z0 I U. assert (Y : system h (is_darwin h) true) by (split; unfold is_darwin; rewrite ?prefix_runs; tauto).
  apply (planned_ran _ _ _ (c139_green_run h a _ _ Sn Y R Z0)). unfold the_plan, plan. rewrite Re. apply planned_more. apply planned_more.
  apply (planned_app _ _ [_] [_; _]); [exists [], []; split; [reflexivity|exact Logic.I]|]. apply planned_pre. cbn [if_ negb andb].
  apply (planned_each _ _ m); [exact I|]. unfold check_it.
  eexists [Remove _; Make _], _. split; [reflexivity|]. eexists [CopyFile _ _], _. split; [reflexivity|exact Logic.I].
Qed.
Lemma plan_commands_release h a mac unix t : c_release a = true -> In t (the_plan h a mac unix) ->
  match t with Run _ ws => hd [] ws <> $"ctest" /\ hd [] ws <> under (h_root h) $"build/oclint-release/bin/oclint-json-compilation-database" | _ => True end
  \/ exists d rest, t = Run d (h_python h :: rest).
Proof.
  intros Re I. unfold the_plan, plan in I. rewrite Re in I. rewrite andb_false_r in I.
  assert (B : forall w, In w [$"cmake"; $"ninja"; $"git"; $"make"] -> w <> $"ctest" /\ w <> under (h_root h) $"build/oclint-release/bin/oclint-json-compilation-database").
  { intros w W. split; [intros ->; cbn [In] in W; intuition discriminate|]. intros ->. cbn [In] in W.
    assert (L : forall x, x = under (h_root h) $"build/oclint-release/bin/oclint-json-compilation-database" -> length x > 10).
    { intros x ->. unfold under. rewrite !app_length. change (length $"build/oclint-release/bin/oclint-json-compilation-database") with 57. lia. }
    destruct W as [W|[W|[W|[W|[]]]]]; apply L in W; cbv in W; lia. }
  assert (Q : forall d w ws, In w [$"cmake"; $"ninja"; $"git"; $"make"] -> match Run d (w :: ws) with Run _ ws => hd [] ws <> $"ctest" /\ hd [] ws <> under (h_root h) $"build/oclint-release/bin/oclint-json-compilation-database" | _ => True end \/ exists d' rest, Run d (w :: ws) = Run d' (h_python h :: rest)).
  { intros d w ws W. left. exact (B w W). }
  rewrite !in_app_iff in I. destruct I as [I|[[I|I]|[I|[I|I]]]].
  - destruct (c_setup a); [|contradiction]. cbn [if_] in I. unfold set_up in I. cbn [negb if_] in I. rewrite !in_app_iff in I. destruct I as [I|[I|[I|I]]].
    + destruct I as [<-|[]]. apply Q. right. right. now left.
    + destruct mac; [|contradiction]. destruct I as [<-|[]]. apply Q. right. right. now left.
    + destruct I as [<-|[]]. right. eauto.
    + contradiction.
  - apply in_map_iff in I as (m & <- & _). now left.
  - apply in_flat_map in I as (m & _ & I). destruct I as [<-|[<-|[<-|[]]]]; [now left|apply Q; now left|apply Q; right; now left].
  - destruct I as [<-|[]]. right. eauto.
  - contradiction.
  - destruct (c_archive a); [|contradiction]. destruct I as [<-|[]]. right. eexists _, _. reflexivity.
Qed.
(** A green run for a release has run no test and checked nothing. *)
Theorem c139_release_tests_nothing : forall h a, sane h -> c_reset a = false -> c_release a = true -> status h a = 0%Z ->
  h_python h <> $"ctest" -> h_python h <> under (h_root h) $"build/oclint-release/bin/oclint-json-compilation-database" ->
  forall dir cmd code w ws, In (Ran dir cmd code) (history h a) -> splits cmd (w :: ws) ->
  w <> $"ctest" /\ w <> under (h_root h) $"build/oclint-release/bin/oclint-json-compilation-database".
Proof.
  intros h a Sn R Re Z0 P1 P2 dir cmd code w ws I Sp. assert (Y : system h (is_darwin h) (is_unix h)) by (split; unfold is_unix, is_darwin, is_linux; rewrite ?orb_true_iff, !prefix_runs; tauto).
  pose proof (c139_green_run h a _ _ Sn Y R Z0) as F. assert (I2 : In (Ran dir cmd code) (steps (history h a))) by (apply filter_In; auto).
  apply in_split in I2 as (l1 & l2 & E). rewrite E in F. apply forall2_split in F as (t1 & t & t2 & PL & _ & D & _).
  assert (T : In t (the_plan h a (is_darwin h) (is_unix h))) by (rewrite PL; apply in_app_iff; right; now left).
  pose proof (plan_commands_release h a _ _ t Re T) as K. destruct t as [d vs|d c|p|p|p q|p q|p|p]; cbn [does] in D; try discriminate D.
  - destruct D as (c & E2 & Sv). injection E2 as <- <- ->. pose proof (splits_fun _ _ _ Sp Sv) as <-. destruct K as [K|(d & rest & K)]; [exact K|].
    injection K as -> -> ->. auto.
  - exfalso. clear - T Re. unfold the_plan, plan in T. rewrite Re, andb_false_r in T. rewrite !in_app_iff in T. destruct T as [T|[[T|T]|[T|[T|T]]]].
    + destruct (c_setup a); [|contradiction]. cbn [if_] in T. unfold set_up in T. cbn [negb if_] in T. rewrite !in_app_iff in T. destruct T as [T|[T|[T|T]]].
      * destruct T as [T|[]]. discriminate T.
      * destruct (is_darwin h); [|contradiction]. destruct T as [T|[]]. discriminate T.
      * destruct T as [T|[]]. discriminate T.
      * contradiction.
    + apply in_map_iff in T as (m & T & _). discriminate T.
    + apply in_flat_map in T as (m & _ & T). destruct T as [T|[T|[T|[]]]]; discriminate T.
    + destruct T as [T|[]]. discriminate T.
    + contradiction.
    + destruct (c_archive a); [|contradiction]. destruct T as [T|[]]. discriminate T.
Qed.

(** *** Cases *)
Definition pull_request := {| c_reset := false; c_setup := true; c_release := false; c_archive := false; c_j := 0 |}.
Lemma usual_sane : sane usual_host.
Proof.
  split; [now apply good_lit|]. split; [now apply plain_lit|]. split; [now apply good_lit|]. split; [reflexivity|]. intros. cbn. lia.
Qed.
Lemma usual_system : system usual_host false true.
Proof.
  split; split; try discriminate.
  - intros (r & E). discriminate E.
  - intros _. right. now exists [].
  - reflexivity.
Qed.
Example c139_green_case : sane usual_host /\ system usual_host false true /\ status usual_host pull_request = 0%Z /\ length (history usual_host pull_request) = 137
  /\ length (the_plan usual_host pull_request false true) = 91.
Proof. split; [exact usual_sane|]. split; [exact usual_system|]. split; [vm_compute; reflexivity|]. split; vm_compute; reflexivity. Qed.
(** The tests of the rules fail. *)
Definition red_host := {| h_root := $"/work/oclint"; h_python := $"/usr/bin/python3"; h_cpus := 8; h_kernel := $"Linux"; h_arch := $"x86_64"; h_tmp := $"/tmp";
  h_run := fun _ cwd cmd => if str_eqb cwd $"/work/oclint/build/oclint-rules-test" && prefixb $"ctest" cmd then 8%Z else 0%Z;
  h_does := fun _ _ op => match op with IsDir _ => false | _ => true end |}.
Example c139_red_case : status red_host pull_request = 8%Z
  /\ last (history red_host pull_request) (Did (Chdir []) true) = Did (ShowFile $"/work/oclint/build/oclint-rules-test/testresults.txt") true.
Proof. split; vm_compute; reflexivity. Qed.
(** Started in another directory, ci runs other scripts, or none. *)
Theorem c139_elsewhere_refuted : exists h a, sane h /\ system h false true /\ c_reset a = false
  /\ let r := ci h a {| p_cwd := h_root h; p_past := [] |} in
     exit_status (fst r) = 0%Z /\ ~ Forall2 does (steps (p_past (snd r))) (the_plan h a false true)
     /\ In (Ran (h_root h) ($"/usr/bin/python3 test -clean -j 8") 0) (p_past (snd r)).
Proof.
  exists usual_host, {| c_reset := false; c_setup := false; c_release := false; c_archive := false; c_j := 0 |}.
  split; [exact usual_sane|]. split; [exact usual_system|]. split; [reflexivity|]. cbv zeta. split; [vm_compute; reflexivity|]. split.
  - intros F. assert (L : forall A B (P : A -> B -> Prop) x y, Forall2 P x y -> length x = length y) by (induction 1; cbn; congruence).
    apply L in F. vm_compute in F. discriminate F.
  - vm_compute. now left.
Qed.

Print Assumptions c138_configure.
Print Assumptions c138_configure_tests.
Print Assumptions c138_configure_check.
Print Assumptions c138_one_reading.
Print Assumptions c138_needed_first.
Print Assumptions c138_blank_refuted.
Print Assumptions c139_green_run.
Print Assumptions c139_stops_at_failure.
Print Assumptions c139_reset.
Print Assumptions c139_code.
Print Assumptions c139_history_is_true.
Print Assumptions c139_tested.
Print Assumptions c139_checked.
Print Assumptions c139_release_tests_nothing.
Print Assumptions c139_elsewhere_refuted.
