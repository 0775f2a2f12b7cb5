(** * C148: the reporters that were scaffolded are built *)
From Coq Require Import Permutation.
From Verif Require Import Base BaseFacts ModelScaffold SpecScaffold PropScaffold ModelCMake ModelCMakeTexts ModelCMakeConfig SpecCMake SpecCMakeReporters
  ProofCMake ProofCMakeRules ProofCMakeRoot ProofCMakeTests ProofCMakeConfig ProofCMakeReporters PropCMake PropCMakeTests PropCMakeCases.
Local Opaque commands_in config_run.

(** What the copy looks like after any history: [rs] is built, and the tests [ts]. *)
Record reporters_tree (project : str) (rs ts : list str) (g : files) : Prop := {
  w_root : g (project ++ $"/CMakeLists.txt") = Some (text_of reporters_lists $"CMakeLists.txt");
  w_templates : forall p t, In (p, t) reporters_templates -> g (project ++ $"/" ++ p) <> None;
  w_list : exists text, g (reporters_list project) = Some text /\ commands_in text = Some (reporters_head ++ map reporter_call rs);
  w_tests : exists text, g (all_tests_list project) = Some text /\ commands_in text = Some (reporter_tests_head ++ map reporter_test_call ts);
  w_sources : forall n, In n rs -> g (project ++ $"/reporters/" ++ n ++ $"Reporter.cpp") <> None;
  w_test_sources : forall n, In n ts -> g (project ++ $"/test/" ++ n ++ $".cpp") <> None;
  w_names : Forall name_like rs;
  w_test_names : Forall name_like ts;
  w_once : NoDup rs;
  w_tests_once : NoDup ts
}.
Definition built (l : list repargs) : list str := shipped_reporters ++ map pa_class_name l.
Definition tested (l : list repargs) : list str := shipped_reporter_tests ++ map (fun a => pa_class_name a ++ $"ReporterTest") (filter pa_tests l).

Lemma names_check : forall l, forallb name_likeb l = true -> Forall name_like l.
Proof. intros l H. rewrite forallb_forall in H. apply Forall_forall. intros n I. apply name_likeb_is, H, I. Qed.
Lemma known_reporters : forall p t, In (p, t) reporters_lists -> text_of reporters_lists p = t.
Proof.
  assert (H : forallb (fun e => str_eqb (text_of reporters_lists (fst e)) (snd e)) reporters_lists = true) by (vm_compute; reflexivity).
  intros p t I. rewrite forallb_forall in H. apply str_eqb_eq, (H _ I).
Qed.
Lemma shipped_once : NoDup shipped_reporters /\ NoDup shipped_reporter_tests.
Proof.
  split.
  - pose proof (NoDup_nodup (list_eq_dec ascii_dec) shipped_reporters) as N.
    replace (nodup _ _) with shipped_reporters in N by (vm_compute; reflexivity). exact N.
  - pose proof (NoDup_nodup (list_eq_dec ascii_dec) shipped_reporter_tests) as N.
    replace (nodup _ _) with shipped_reporter_tests in N by (vm_compute; reflexivity). exact N.
Qed.
Lemma start_reporters : forall project f, reporters_checkout project f -> reporters_tree project (built []) (tested []) f.
Proof.
  intros project f (L & S).
  assert (T : forall p, In p (map fst reporters_lists) -> f (project ++ $"/" ++ p) = Some (text_of reporters_lists p)).
  { intros p I. apply in_map_iff in I as ([p' t] & <- & I). cbn [fst]. rewrite (known_reporters _ _ I). apply L, in_or_app. left. exact I. }
  destruct reporters_texts as (_ & C1 & C2). unfold built, tested. cbn [map filter]. rewrite !app_nil_r. split.
  - apply (T $"CMakeLists.txt"). cbn [map fst reporters_lists In]. listed_member.
  - intros p t I. rewrite (L p t) by (apply in_or_app; right; exact I). discriminate.
  - eexists. split; [apply (T $"reporters/CMakeLists.txt"); cbn [map fst reporters_lists In]; listed_member|exact C1].
  - eexists. split; [apply (T $"test/CMakeLists.txt"); cbn [map fst reporters_lists In]; listed_member|exact C2].
  - assert (H : forallb (fun n => existsb (str_eqb ($"reporters/" ++ n ++ $"Reporter.cpp")) reporters_sources) shipped_reporters = true) by (vm_compute; reflexivity).
    rewrite forallb_forall in H. intros n I. specialize (H n I). apply existsb_exists in H as (x & X & E). apply str_eqb_eq in E. subst x. exact (S _ X).
  - assert (H : forallb (fun n => existsb (str_eqb ($"test/" ++ n ++ $".cpp")) reporters_sources) shipped_reporter_tests = true) by (vm_compute; reflexivity).
    rewrite forallb_forall in H. intros n I. specialize (H n I). apply existsb_exists in H as (x & X & E). apply str_eqb_eq in E. subst x. exact (S _ X).
  - apply names_check. reflexivity.
  - apply names_check. reflexivity.
  - apply shipped_once.
  - apply shipped_once.
Qed.
Lemma edited_reporters : forall project rs ts g h, reporters_tree project rs ts g -> edited project g h -> reporters_tree project rs ts h.
Proof.
  intros project rs ts g h [A B C D E G N1 N2 O1 O2] (L & K). split; auto.
  - rewrite <- A. exact (L []).
  - intros p t I. apply K, (B p t I).
  - destruct C as (text & T & C). exists text. split; [|exact C]. rewrite <- T. exact (L $"/reporters").
  - destruct D as (text & T & C'). exists text. split; [|exact C']. rewrite <- T. exact (L $"/test").
Qed.

Lemma reporter_letters : forall a, sensible_reporter a -> letters (pa_class_name a).
Proof. intros a ((x & r & E & U & R) & _). rewrite E. split; [discriminate|]. constructor; [unfold isalpha; rewrite U; reflexivity|exact R]. Qed.
Lemma reporter_step_commands : forall a text l, sensible_reporter a -> commands_in text = Some l -> commands_in (text ++ reporter_step a) = Some (l ++ [reporter_call (pa_class_name a)]).
Proof.
  intros a text l Sa C. unfold reporter_step.
  apply (commands_more text l ($"BUILD_DYNAMIC_REPORTER(" ++ pa_class_name a ++ $")" ++ [NL]) [reporter_call (pa_class_name a)] C).
  apply (one_argument $"BUILD_DYNAMIC_REPORTER" (pa_class_name a)); [apply letters_name, reporter_letters, Sa| |discriminate].
  apply Forall_forall. intros c I.
  assert (H : forallb (fun c => is_word c && negb (isdigit c)) $"BUILD_DYNAMIC_REPORTER" = true) by reflexivity. rewrite forallb_forall in H. specialize (H c I).
  apply andb_true_iff in H as [H1 H2]. apply Bool.negb_true_iff in H2. auto.
Qed.
Lemma test_name_like : forall a, sensible_reporter a -> name_like (pa_class_name a ++ $"ReporterTest").
Proof.
  intros a Sa. destruct (letters_name _ (reporter_letters a Sa)) as [N F]. split; [intros E; apply app_eq_nil in E as [_ E]; discriminate|].
  apply Forall_app. split; [exact F|apply checked; reflexivity].
Qed.
Lemma reporter_test_step_commands : forall a text l, sensible_reporter a -> commands_in text = Some l ->
  commands_in (text ++ reporter_test_step a) = Some (l ++ [reporter_test_call (pa_class_name a ++ $"ReporterTest")]).
Proof.
  intros a text l Sa C. unfold reporter_test_step.
  assert (E : $"BUILD_TEST(" ++ pa_class_name a ++ $"ReporterTest)" ++ [NL] = $"BUILD_TEST" ++ $"(" ++ (pa_class_name a ++ $"ReporterTest") ++ $")" ++ [NL])
    by (rewrite <- !app_assoc; reflexivity).
  rewrite E. apply (commands_more text l _ [reporter_test_call (pa_class_name a ++ $"ReporterTest")] C).
  apply (one_argument $"BUILD_TEST" (pa_class_name a ++ $"ReporterTest")); [apply test_name_like, Sa| |discriminate].
  apply Forall_forall. intros c I.
  assert (H : forallb (fun c => is_word c && negb (isdigit c)) $"BUILD_TEST" = true) by reflexivity. rewrite forallb_forall in H. specialize (H c I).
  apply andb_true_iff in H as [H1 H2]. apply Bool.negb_true_iff in H2. auto.
Qed.
Lemma write_kept : forall f p t q, f q <> None -> write f p t q <> None.
Proof. intros f p t q H. destruct (list_eq_dec ascii_dec q p) as [->|N]; [rewrite write_same; discriminate|rewrite write_other by exact N; exact H]. Qed.
(** What the script did, whatever is in the templates. *)
Lemma scaffold_outcome : forall project g a, sensible_reporter a ->
  (forall p t, In (p, t) reporters_templates -> g (project ++ $"/" ++ p) <> None) ->
  (exists complaints, complaints <> [] /\ scaffoldReporter project g a = (complaints, (g, Val tt)))
  \/ (g (reporter_file project a) = None /\ (pa_tests a = true -> g (reporter_test_file project a) = None)
      /\ exists h, scaffoldReporter project g a = ([], (h, Val tt))
          /\ h (reporter_file project a) <> None
          /\ h (reporters_list project) = Some (text_at g (reporters_list project) ++ reporter_step a)
          /\ (pa_tests a = true -> h (reporter_test_file project a) <> None)
          /\ h (all_tests_list project) = (if pa_tests a then Some (text_at g (all_tests_list project) ++ reporter_test_step a) else g (all_tests_list project))
          /\ (forall q, ~ In q [reporter_file project a; reporters_list project; reporter_test_file project a; all_tests_list project] -> h q = g q)
          /\ forall q, g q <> None -> h q <> None).
Proof.
  intros project f a Sa Te.
  assert (RT : forall x y, project ++ $"/reporters/" ++ x <> project ++ $"/test/" ++ y) by (intros; apply under_apart; discriminate).
  assert (TR : forall x y, project ++ $"/test/" ++ x <> project ++ $"/reporters/" ++ y) by (intros; apply under_apart; discriminate).
  assert (MR : forall x y, project ++ $"/template/" ++ x <> project ++ $"/reporters/" ++ y) by (intros; apply under_apart; discriminate).
  assert (MT : forall x y, project ++ $"/template/" ++ x <> project ++ $"/test/" ++ y) by (intros; apply under_apart; discriminate).
  assert (T1 : exists t, f (project ++ $"/template/Reporter.tmpl") = Some t).
  { destruct (f (project ++ $"/template/Reporter.tmpl")) as [t|] eqn:E; [exists t; reflexivity|]. exfalso. eapply (Te $"template/Reporter.tmpl"); [cbn [reporters_templates In]; left; reflexivity|exact E]. }
  assert (T2 : exists t, f (project ++ $"/template/ReporterTest.tmpl") = Some t).
  { destruct (f (project ++ $"/template/ReporterTest.tmpl")) as [t|] eqn:E; [exists t; reflexivity|]. exfalso. eapply (Te $"template/ReporterTest.tmpl"); [cbn [reporters_templates In]; right; left; reflexivity|exact E]. }
  destruct T1 as (t1 & T1). destruct T2 as (t2 & T2).
  unfold scaffoldReporter, pre_validate. destruct (rep_paths project a Sa) as (-> & -> & -> & ->).
  destruct (rep_apart project a) as [Ap1 Ap2].
  destruct (isfile f (reporter_file project a)) eqn:K1.
  { left. eexists. split; [|reflexivity]. discriminate. }
  destruct (pa_tests a && isfile f (reporter_test_file project a)) eqn:K2.
  { left. eexists. split; [|reflexivity]. discriminate. }
  right. assert (N1 : f (reporter_file project a) = None) by (unfold isfile in K1; destruct (f (reporter_file project a)); [discriminate|reflexivity]).
  assert (N2 : pa_tests a = true -> f (reporter_test_file project a) = None).
  { intros E. rewrite E in K2. cbn [andb] in K2. unfold isfile in K2. destruct (f (reporter_test_file project a)); [discriminate|reflexivity]. }
  split; [exact N1|]. split; [exact N2|]. cbn [orb negb app]. unfold rep_copy_template.
  rewrite write_other by apply (MR $"Reporter.tmpl"). rewrite T1.
  set (f1 := write (write f (reporter_file project a) []) (reporter_file project a) _).
  assert (O1 : forall q, q <> reporter_file project a -> f1 q = f q) by (intros q Q; unfold f1; rewrite !write_other by auto; reflexivity).
  assert (D1 : f1 (reporter_file project a) <> None) by (unfold f1; rewrite write_same; discriminate).
  unfold append_cmake_lists. rewrite append_write.
  assert (L1 : text_at f1 (reporters_list project) = text_at f (reporters_list project)) by (unfold text_at; rewrite O1 by auto; reflexivity).
  rewrite L1. set (f2 := write f1 (reporters_list project) _).
  assert (O2 : forall q, q <> reporters_list project -> f2 q = f1 q) by (intros q Q; unfold f2; rewrite write_other by auto; reflexivity).
  assert (D2 : f2 (reporters_list project) = Some (text_at f (reporters_list project) ++ reporter_step a)).
  { unfold f2. rewrite write_same. unfold reporter_step. rewrite <- !app_assoc. reflexivity. }
  destruct (pa_tests a) eqn:Pt.
  - rewrite write_other by apply (MT $"ReporterTest.tmpl"). rewrite O2 by apply (MR $"ReporterTest.tmpl"). rewrite O1 by apply (MR $"ReporterTest.tmpl"). rewrite T2.
    set (f3 := write (write f2 (reporter_test_file project a) []) (reporter_test_file project a) _).
    assert (O3 : forall q, q <> reporter_test_file project a -> f3 q = f2 q) by (intros q Q; unfold f3; rewrite !write_other by auto; reflexivity).
    assert (D3 : f3 (reporter_test_file project a) <> None) by (unfold f3; rewrite write_same; discriminate).
    eexists. split; [reflexivity|]. rewrite append_write. 
    assert (L3 : text_at f3 (all_tests_list project) = text_at f (all_tests_list project)).
    { unfold text_at. rewrite O3 by auto. rewrite O2 by apply TR. rewrite O1 by apply TR. reflexivity. }
    rewrite L3. split; [|split; [|split; [|split; [|split]]]].
    + rewrite write_other by apply RT. rewrite O3 by apply RT. rewrite O2 by auto. exact D1.
    + rewrite write_other by apply RT. rewrite O3 by apply RT. exact D2.
    + intros _. rewrite write_other by auto. exact D3.
    + rewrite write_same. unfold reporter_test_step. rewrite <- !app_assoc. reflexivity.
    + intros q Q. cbn [In] in Q. rewrite write_other, O3, O2, O1 by (intros ->; apply Q; tauto). reflexivity.
    + intros q Q. unfold f3, f2, f1. repeat apply write_kept. exact Q.
  - eexists. split; [reflexivity|]. split; [|split; [|split; [|split; [|split]]]].
    + rewrite O2 by auto. exact D1.
    + exact D2.
    + discriminate.
    + rewrite O2 by apply TR. rewrite O1 by apply TR. reflexivity.
    + intros q Q. cbn [In] in Q. rewrite O2, O1 by (intros ->; apply Q; tauto). reflexivity.
    + intros q Q. unfold f2, f1. repeat apply write_kept. exact Q.
Qed.

Lemma nodup_app_one : forall (l : list str) x, NoDup l -> ~ In x l -> NoDup (l ++ [x]).
Proof. intros l x N I. eapply Permutation_NoDup; [apply Permutation_cons_append|constructor; assumption]. Qed.
Lemma made_tree : forall project l g a h, reporters_tree project (built l) (tested l) g -> sensible_reporter a ->
  scaffoldReporter project g a = ([], (h, Val tt)) -> reporters_tree project (built (l ++ [a])) (tested (l ++ [a])) h.
Proof.
  intros project l g a h W Sa R. destruct (scaffold_outcome project g a Sa (w_templates _ _ _ _ W)) as [(c & Nc & R')|(N1 & N2 & h' & R' & A & B & C & D & O & Kept)].
  { rewrite R in R'. assert (X : c = []) by congruence. congruence. }
  assert (X : h' = h) by congruence. subst h'. clear R R'.
  set (n := pa_class_name a). assert (Eb : built (l ++ [a]) = built l ++ [n]) by (unfold built; rewrite map_app, app_assoc; reflexivity).
  assert (Et : tested (l ++ [a]) = tested l ++ if pa_tests a then [n ++ $"ReporterTest"] else []).
  { unfold tested. rewrite filter_app, map_app, app_assoc. cbn [filter]. destruct (pa_tests a); reflexivity. }
  rewrite Eb, Et. destruct W as [W1 W2 (text & W3 & C3) (texts & W4 & C4) W5 W6 W7 W8 W9 W10]. split.
  - rewrite O; [exact W1|]. cbn [In]. unfold reporter_file, reporters_list, reporter_test_file, all_tests_list.
    intros [E|[E|[E|[E|[]]]]]; apply app_inv_head in E; discriminate.
  - intros p t I. apply Kept, (W2 p t I).
  - eexists. split; [exact B|]. unfold text_at. rewrite W3. rewrite (reporter_step_commands a _ _ Sa C3).
    rewrite map_app, app_assoc. reflexivity.
  - destruct (pa_tests a).
    + eexists. split; [exact D|]. unfold text_at. rewrite W4. rewrite (reporter_test_step_commands a _ _ Sa C4).
      rewrite map_app, app_assoc. reflexivity.
    + exists texts. split; [rewrite D; exact W4|]. rewrite app_nil_r. exact C4.
  - intros m I. apply in_app_iff in I as [I|[<-|[]]]; [apply Kept, W5, I|exact A].
  - intros m I. apply in_app_iff in I as [I|I]; [apply Kept, W6, I|]. destruct (pa_tests a); [|destruct I]. destruct I as [<-|[]].
    specialize (C eq_refl). unfold reporter_test_file in C. rewrite <- app_assoc. exact C.
  - apply Forall_app. split; [exact W7|]. constructor; [apply letters_name, reporter_letters, Sa|constructor].
  - apply Forall_app. split; [exact W8|]. destruct (pa_tests a); constructor; [apply test_name_like, Sa|constructor].
  - apply nodup_app_one; [exact W9|]. intros I. apply (W5 n I). exact N1.
  - destruct (pa_tests a); [|rewrite app_nil_r; exact W10]. apply nodup_app_one; [exact W10|]. intros I. apply (W6 _ I).
    specialize (N2 eq_refl). unfold reporter_test_file in N2. rewrite <- app_assoc. exact N2.
Qed.
Lemma refused_same : forall project g a h complaints, scaffoldReporter project g a = (complaints, (h, Val tt)) -> complaints <> [] -> h = g.
Proof.
  intros project g a h complaints R N. unfold scaffoldReporter, pre_validate in R.
  destruct (isfile g (class_path project a)); [cbn [orb negb] in R; congruence|].
  destruct (pa_tests a && isfile g (test_path project a)); [cbn [orb negb] in R; congruence|]. exfalso. apply N. apply (f_equal fst) in R. symmetry. exact R.
Qed.
Lemma reporters_history_tree : forall project f l g, reporters_checkout project f -> reporters_history project f l g -> Forall sensible_reporter l ->
  reporters_tree project (built l) (tested l) g.
Proof.
  intros project f l g C H. induction H as [|l f' g H IH E|l a f' g H IH R|l a f' g cs H IH R N]; intros O.
  - apply start_reporters, C.
  - exact (edited_reporters _ _ _ _ _ (IH O) E).
  - apply Forall_app in O as [O Oa]. inversion_clear Oa as [|? ? Sa _]. exact (made_tree _ _ _ _ _ (IH O) Sa R).
  - rewrite (refused_same _ _ _ _ _ R N). exact (IH O).
Qed.

(** Whatever was asked for before, the script answers: it makes the reporter or says why not. *)
Theorem c148_answers : forall project f l g a, reporters_checkout project f -> reporters_history project f l g -> Forall sensible_reporter l -> sensible_reporter a ->
  exists complaints h, scaffoldReporter project g a = (complaints, (h, Val tt))
    /\ (complaints = [] <-> g (reporter_file project a) = None /\ (pa_tests a = true -> g (reporter_test_file project a) = None))
    /\ (complaints <> [] -> h = g).
Proof.
  intros project f l g a C H O Sa. pose proof (reporters_history_tree _ _ _ _ C H O) as W.
  destruct (scaffold_outcome project g a Sa (w_templates _ _ _ _ W)) as [(c & Nc & R)|(N1 & N2 & h & R & _)].
  - exists c, g. split; [exact R|]. split; [|reflexivity]. split; [congruence|]. intros [N1 N2]. exfalso.
    unfold scaffoldReporter, pre_validate in R. destruct (rep_paths project a Sa) as (P1 & P2 & _). rewrite P1, P2 in R. unfold isfile in R. rewrite N1 in R.
    destruct (pa_tests a); [rewrite (N2 eq_refl) in R|]; apply (f_equal fst) in R; apply Nc; symmetry; exact R.
  - exists [], h. split; [exact R|]. split; [tauto|congruence].
Qed.

Lemma join_reporter : forall dir n x, name_like n -> join dir (n ++ x) = dir ++ $"/" ++ n ++ x.
Proof.
  intros dir n x [N F]. destruct n as [|c n]; [congruence|]. inversion_clear F as [|? ? Fc _]. unfold join. cbn [app].
  replace (ascii_eqb c "/"%char) with false; [reflexivity|]. symmetry. destruct (ascii_eqb c "/"%char) eqn:E; [|reflexivity]. apply ascii_eqb_eq in E. subst c. discriminate.
Qed.
Lemma reporter_library_meets : forall project binary n, name_like n -> library_of_reporter project binary n (reporter_library binary (project ++ $"/reporters") n).
Proof.
  intros project binary n N. split; cbn [reporter_library t_name t_kind t_sources t_properties t_links]; try reflexivity.
  - rewrite join_reporter by exact N. rewrite <- app_assoc. reflexivity.
  - intros k d K. cbn [In]. split.
    + intros [E|[E|[]]]; congruence.
    + intros ->. cbn [In] in K. destruct K as [<-|[<-|[]]]; auto.
Qed.
Lemma shipped_reporter_in : forall n, shipped_reporter n <-> In n shipped_reporters.
Proof.
  intros n. unfold shipped_reporter. split.
  - assert (H : forallb (fun p => negb (str_eqb (firstn 10 p) $"reporters/") || existsb (fun n => str_eqb p ($"reporters/" ++ n ++ $"Reporter.cpp")) shipped_reporters) reporters_sources = true)
      by (vm_compute; reflexivity).
    rewrite forallb_forall in H. intros I. specialize (H _ I). change (firstn 10 ($"reporters/" ++ n ++ $"Reporter.cpp")) with $"reporters/" in H.
    rewrite str_eqb_refl in H. cbn [negb orb] in H. apply existsb_exists in H as (m & Im & E). apply str_eqb_eq in E. apply app_inv_head, app_inv_tail in E. subst m. exact Im.
  - assert (H : forallb (fun n => existsb (str_eqb ($"reporters/" ++ n ++ $"Reporter.cpp")) reporters_sources) shipped_reporters = true) by (vm_compute; reflexivity).
    rewrite forallb_forall in H. intros I. specialize (H n I). apply existsb_exists in H as (x & X & E). apply str_eqb_eq in E. subst x. exact X.
Qed.
Lemma shipped_test_in : forall n, shipped_test n <-> In n shipped_reporter_tests.
Proof.
  intros n. unfold shipped_test. split.
  - assert (H : forallb (fun p => negb (str_eqb (firstn 5 p) $"test/") || existsb (fun n => str_eqb p ($"test/" ++ n ++ $".cpp")) shipped_reporter_tests) reporters_sources = true)
      by (vm_compute; reflexivity).
    rewrite forallb_forall in H. intros I. specialize (H _ I). change (firstn 5 ($"test/" ++ n ++ $".cpp")) with $"test/" in H.
    rewrite str_eqb_refl in H. cbn [negb orb] in H. apply existsb_exists in H as (m & Im & E). apply str_eqb_eq in E. apply app_inv_head, app_inv_tail in E. subst m. exact Im.
  - assert (H : forallb (fun n => existsb (str_eqb ($"test/" ++ n ++ $".cpp")) reporters_sources) shipped_reporter_tests = true) by (vm_compute; reflexivity).
    rewrite forallb_forall in H. intros I. specialize (H n I). apply existsb_exists in H as (x & X & E). apply str_eqb_eq in E. subst x. exact X.
Qed.

(** After any history of scaffolding and editing, CMake accepts the project; every reporter that was
    made and every one that is shipped gets its library, once, and nothing else is built. *)
Theorem c148_reporters : forall project binary e given f l g,
  machine $"OCLINT_REPORTERS" project binary e given -> off given $"TEST_BUILD" ->
  reporters_checkout project f -> reporters_history project f l g -> Forall sensible_reporter l ->
  exists s, configures g binary (oclint_config e) project given s
    /\ NoDup (map t_name (s_targets s))
    /\ (forall a, In a l -> exists t, In t (s_targets s) /\ library_of_reporter project binary (pa_class_name a) t)
    /\ (forall class, shipped_reporter class -> exists t, In t (s_targets s) /\ library_of_reporter project binary class t)
    /\ (forall t, In t (s_targets s) -> exists class, library_of_reporter project binary class t /\ (shipped_reporter class \/ exists a, In a l /\ pa_class_name a = class))
    /\ s_tests s = [].
Proof.
  intros project binary e given f l g M Tb C H O. pose proof (reporters_history_tree _ _ _ _ C H O) as W.
  destruct (machine_config _ _ _ _ _ M) as (v & Cv & Cu & Pb & Kv). destruct M as [Mp Mb _ _ (y & Gy & Xy & Ny) Mm].
  assert (Gv : v $"CMAKE_SYSTEM_NAME" = Some y) by (rewrite Kv by (cbn; auto); exact Gy).
  assert (Tv : false_constant (match v $"TEST_BUILD" with Some x => x | None => [] end) = true) by (rewrite Kv by (cbn; auto); exact (off_false _ _ Tb)).
  destruct (w_list _ _ _ _ W) as (text & Lt & Lc).
  assert (Nd : NoDup (map (fun n => n ++ $"Reporter") (built l))) by (apply nodup_map; [intros x z E; exact (app_inv_tail _ _ _ E)|exact (w_once _ _ _ _ W)]).
  destruct (reporters_configured g binary (oclint_config e) project given v Cv Mm Mb (built l) text y Pb Gv Ny Xy Tv Lt Lc (w_names _ _ _ _ W) Nd) as (s & R & Ts & Te).
  assert (Nl : forall n, In n (built l) -> name_like n) by (pose proof (w_names _ _ _ _ W) as F; rewrite Forall_forall in F; exact F).
  assert (Lib : forall n, In n (built l) -> exists t, In t (s_targets s) /\ library_of_reporter project binary n t).
  { intros n I. eexists. split; [rewrite Ts; apply in_map, I|]. apply reporter_library_meets, Nl, I. }
  exists s. split; [|split; [|split; [|split; [|split]]]].
  - apply (configure_done _ _ _ _ _ _ reporters_root s (w_root _ _ _ _ W) (proj1 reporters_texts) R).
    intros t x It Ix. rewrite Ts in It. apply in_map_iff in It as (n & <- & In'). destruct (reporter_library_meets project binary n (Nl n In')) as [_ _ Sx _ _].
    rewrite Sx in Ix. destruct Ix as [<-|[]]. apply (w_sources _ _ _ _ W n In').
  - rewrite Ts, map_map. exact Nd.
  - intros a I. apply Lib, in_or_app. right. exact (in_map pa_class_name _ _ I).
  - intros n I. apply Lib, in_or_app. left. apply shipped_reporter_in, I.
  - intros t It. rewrite Ts in It. apply in_map_iff in It as (n & <- & In'). exists n. split; [apply reporter_library_meets, Nl, In'|].
    apply in_app_iff in In' as [I|I]; [left; apply shipped_reporter_in, I|]. right. apply in_map_iff in I as (a & E & I). exists a. auto.
  - exact Te.
Qed.

(** With TEST_BUILD the tests are built and run instead: those asked for and those shipped. *)
Theorem c148_tests : forall project binary e given f l g,
  machine $"OCLINT_REPORTERS" project binary e given -> on given $"TEST_BUILD" ->
  reporters_checkout project f -> reporters_history project f l g -> Forall sensible_reporter l ->
  exists s, configures g binary (oclint_config e) project given s
    /\ s_vars s $"CMAKE_TESTING_ENABLED" = Some $"1"
    /\ NoDup (map t_name (s_targets s)) /\ map fst (s_tests s) = map t_name (s_targets s)
    /\ (forall a, In a l -> pa_tests a = true -> exists t, In t (s_targets s) /\ reporter_test_program project binary (pa_class_name a ++ $"ReporterTest") s t)
    /\ (forall name, shipped_test name -> exists t, In t (s_targets s) /\ reporter_test_program project binary name s t)
    /\ (forall t, In t (s_targets s) -> exists name, reporter_test_program project binary name s t
         /\ (shipped_test name \/ exists a, In a l /\ pa_tests a = true /\ name = pa_class_name a ++ $"ReporterTest")).
Proof.
  intros project binary e given f l g M Tb C H O. pose proof (reporters_history_tree _ _ _ _ C H O) as W.
  destruct (machine_config _ _ _ _ _ M) as (v & Cv & _ & _ & Kv). destruct M as [Mp Mb _ Mk _ Mm].
  destruct (on_true _ _ Tb) as (x & Gx & Fx). set (out := binary ++ $"/bin").
  assert (Gv : v $"TEST_BUILD" = Some x) by (rewrite Kv by (cbn; auto); exact Gx).
  assert (Kk : forall k, In k [$"TEST_BUILD"; $"EXECUTABLE_OUTPUT_PATH"] -> llvm_keeps e k) by (intros k I a b; apply Mk; cbn [In] in *; tauto).
  destruct (config_tests e _ v Cv (Kk $"TEST_BUILD" ltac:(cbn; auto)) x Gx Fx) as (Gt & Te0 & _).
  assert (Mo : v $"EXECUTABLE_OUTPUT_PATH" = Some out) by exact (config_out e _ v Cv binary (Kk $"EXECUTABLE_OUTPUT_PATH" ltac:(cbn; auto)) eq_refl Mb).
  assert (Mq : no_semicolon out) by (intros I; apply in_app_iff in I as [I|I]; [exact (Mb I)|cbn in I; repeat destruct I as [I|I]; discriminate || contradiction]).
  destruct (w_tests _ _ _ _ W) as (text & Lt & Lc).
  destruct (reporter_tests_configured g binary (oclint_config e) project given v Cv Mm (tested l) text x out Mo Mq Gv Fx Lt Lc (w_test_names _ _ _ _ W) (w_tests_once _ _ _ _ W))
    as (s & R & Ts & Te & Vs).
  assert (Nl : forall n, In n (tested l) -> name_like n) by (pose proof (w_test_names _ _ _ _ W) as F; rewrite Forall_forall in F; exact F).
  assert (Links : incl [$"gmock"; $"gtest"; $"clangTooling"; $"clangAST"; $"clangBasic"; $"OCLintCore"] (reporter_libs v)).
  { intros k K. unfold reporter_libs, listed_in. rewrite Gt, (config_clang e _ v Cv). rewrite !in_app_iff.
    change (elements [] $"gmock;gtest") with [$"gmock"; $"gtest"]. change (elements [] (list_of clang_libraries)) with clang_libraries.
    cbn [In] in K. destruct K as [<-|[<-|[<-|[<-|[<-|[<-|[]]]]]]].
    - left. cbn [In]. auto.
    - left. cbn [In]. auto.
    - right. right. left. cbn [clang_libraries In]. tauto.
    - right. right. left. cbn [clang_libraries In]. tauto.
    - right. right. left. cbn [clang_libraries In]. tauto.
    - right. right. right. right. cbn [In]. auto. }
  assert (Prog : forall n, In n (tested l) -> reporter_test_program project binary n s (reporter_test v (project ++ $"/test") n)).
  { intros n I. split; cbn [reporter_test t_name t_kind t_sources t_links]; try reflexivity.
    - rewrite join_reporter by exact (Nl n I). rewrite <- app_assoc. reflexivity.
    - exact Links.
    - rewrite Te. apply (in_map (run_of out)) in I. assert (E : run_of out n = (n, [binary ++ $"/bin/" ++ n])) by (unfold run_of, out; rewrite <- app_assoc; reflexivity).
      rewrite E in I. exact I. }
  assert (Exe : forall n, In n (tested l) -> exists t, In t (s_targets s) /\ reporter_test_program project binary n s t).
  { intros n I. eexists. split; [rewrite Ts; apply in_map, I|]. apply Prog, I. }
  exists s. split; [|split; [rewrite Vs; exact Te0|split; [|split; [|split; [|split]]]]].
  - apply (configure_done _ _ _ _ _ _ reporters_root s (w_root _ _ _ _ W) (proj1 reporters_texts) R).
    intros t z It Iz. rewrite Ts in It. apply in_map_iff in It as (n & <- & In'). destruct (Prog n In') as [_ _ Sx _ _].
    rewrite Sx in Iz. destruct Iz as [<-|[]]. apply (w_test_sources _ _ _ _ W n In').
  - rewrite Ts, map_map. cbn [reporter_test t_name]. rewrite map_id. exact (w_tests_once _ _ _ _ W).
  - rewrite Ts, Te, !map_map. reflexivity.
  - intros a I Pa. apply Exe, in_or_app. right. apply (in_map (fun a => pa_class_name a ++ $"ReporterTest")), filter_In. auto.
  - intros n I. apply Exe, in_or_app. left. apply shipped_test_in, I.
  - intros t It. rewrite Ts in It. apply in_map_iff in It as (n & <- & In'). exists n. split; [apply Prog, In'|].
    apply in_app_iff in In' as [I|I]; [left; apply shipped_test_in, I|]. right. apply in_map_iff in I as (a & E & I). apply filter_In in I as [I P]. exists a. auto.
Qed.

(** A concrete case. *)
Definition reporters_home : str := $"/oclint/oclint-reporters".
Definition reporters_sample : files := fun p =>
  match find (fun e => str_eqb (reporters_home ++ $"/" ++ fst e) p) (reporters_lists ++ reporters_templates) with
  | Some (_, t) => Some t
  | None => if existsb (fun e => str_eqb (reporters_home ++ $"/" ++ e) p) reporters_sources then Some [] else None
  end.
Definition wanted (class : str) (tests : bool) : repargs := {| pa_class_name := class; pa_name := []; pa_tests := tests |}.
Definition after (f : files) (a : repargs) : files := fst (snd (scaffoldReporter reporters_home f a)).
Lemma reporters_sample_checkout : reporters_checkout reporters_home reporters_sample.
Proof.
  split.
  - assert (H : forallb (fun e => match reporters_sample (reporters_home ++ $"/" ++ fst e) with Some t => str_eqb t (snd e) | None => false end) (reporters_lists ++ reporters_templates) = true)
      by (vm_compute; reflexivity).
    rewrite forallb_forall in H. intros p t I. specialize (H _ I). cbn [fst snd] in H. destruct (reporters_sample _) as [t'|]; [|discriminate]. apply str_eqb_eq in H. congruence.
  - assert (H : forallb (fun p => match reporters_sample (reporters_home ++ $"/" ++ p) with Some _ => true | None => false end) reporters_sources = true) by (vm_compute; reflexivity).
    rewrite forallb_forall in H. intros p I. specialize (H _ I). destruct (reporters_sample _); discriminate.
Qed.
Lemma one_reporter : forall l f a, reporters_history reporters_home reporters_sample l f -> Forall sensible_reporter l -> sensible_reporter a ->
  let there p := match f p with Some _ => true | None => false end in
  reporters_history reporters_home reporters_sample
    (l ++ if there (reporter_file reporters_home a) || pa_tests a && there (reporter_test_file reporters_home a) then [] else [a]) (after f a).
Proof.
  intros l f a H O Sa there. destruct (c148_answers _ _ _ _ a reporters_sample_checkout H O Sa) as (c & h & R & Eq & _). unfold after. rewrite R. cbn [fst snd]. subst there. cbv beta.
  destruct (f (reporter_file reporters_home a)) as [x|]; [|destruct (pa_tests a); [destruct (f (reporter_test_file reporters_home a)) as [x|]|]]; cbn [orb andb].
  - rewrite app_nil_r. apply (k_refused _ _ _ _ _ _ _ H R). intros X. apply Eq in X as [X _]. discriminate X.
  - rewrite app_nil_r. apply (k_refused _ _ _ _ _ _ _ H R). intros X. apply Eq in X as [_ X]. discriminate (X eq_refl).
  - apply (k_made _ _ _ _ _ _ H). rewrite R. f_equal. apply Eq. auto.
  - apply (k_made _ _ _ _ _ _ H). rewrite R. f_equal. apply Eq. split; [reflexivity|discriminate].
Qed.
Lemma one_reporter_more : forall l f a b, reporters_history reporters_home reporters_sample l f -> Forall sensible_reporter l -> sensible_reporter a ->
  (match f (reporter_file reporters_home a) with Some _ => true | None => false end
   || pa_tests a && match f (reporter_test_file reporters_home a) with Some _ => true | None => false end) = b ->
  reporters_history reporters_home reporters_sample (l ++ if b then [] else [a]) (after f a).
Proof. intros l f a b H O Sa <-. exact (one_reporter l f a H O Sa). Qed.
Lemma wanted_sensible : forall class tests, match class with x :: r => isupper x && forallb isalpha r | [] => false end = true -> sensible_reporter (wanted class tests).
Proof.
  intros [|x r] tests H; [discriminate|]. apply andb_true_iff in H as [U R]. split; [exists x, r; split; [reflexivity|split; [exact U|apply checked, R]]|intros c []].
Qed.
(** Markdown is asked for twice, the second time in vain; so is Text, which is shipped. *)
Example c148_case : exists g, reporters_checkout reporters_home reporters_sample
  /\ reporters_history reporters_home reporters_sample [wanted $"Markdown" true; wanted $"Csv" false] g
  /\ Forall sensible_reporter [wanted $"Markdown" true; wanted $"Csv" false]
  /\ machine $"OCLINT_REPORTERS" reporters_home $"/oclint/build" around linux /\ off linux $"TEST_BUILD"
  /\ machine $"OCLINT_REPORTERS" reporters_home $"/oclint/build" around testing /\ on testing $"TEST_BUILD".
Proof.
  set (a := wanted $"Markdown" true). set (b := wanted $"Csv" false). set (c := wanted $"Text" true).
  assert (Sa : sensible_reporter a) by (apply wanted_sensible; reflexivity). assert (Sb : sensible_reporter b) by (apply wanted_sensible; reflexivity).
  assert (Sc : sensible_reporter c) by (apply wanted_sensible; reflexivity).
  set (f1 := after reporters_sample a). set (f2 := after f1 a). set (f3 := after f2 c). set (f4 := after f3 b).
  assert (O : Forall sensible_reporter [a]) by auto.
  assert (H1 : reporters_history reporters_home reporters_sample [a] f1)
    by (apply (one_reporter_more [] reporters_sample a false (k_start _ _) (Forall_nil _) Sa); vm_compute; reflexivity).
  assert (H2 : reporters_history reporters_home reporters_sample [a] f2) by (apply (one_reporter_more [a] f1 a true H1 O Sa); vm_compute; reflexivity).
  assert (H3 : reporters_history reporters_home reporters_sample [a] f3) by (apply (one_reporter_more [a] f2 c true H2 O Sc); vm_compute; reflexivity).
  assert (H4 : reporters_history reporters_home reporters_sample [a; b] f4) by (apply (one_reporter_more [a] f3 b false H3 O Sb); vm_compute; reflexivity).
  exists f4. split; [exact reporters_sample_checkout|]. split; [exact H4|]. split; [auto|]. clear.
  assert (Md : forall given, given $"CMAKE_SYSTEM_NAME" = Some $"Linux" -> given $"CMAKE_MODULE_PATH" = None ->
    match oclint_config around (at_include $"OCLINT_REPORTERS" reporters_home $"/oclint/build" given) with Some _ => true | None => false end = true ->
    machine $"OCLINT_REPORTERS" reporters_home $"/oclint/build" around given).
  { intros given G1 G2 X. split; [| | | | |exact G2].
    - cbn. intros H. repeat destruct H as [H|H]; discriminate || contradiction.
    - cbn. intros H. repeat destruct H as [H|H]; discriminate || contradiction.
    - intros E. rewrite E in X. clear E. discriminate X.
    - intros v w k I E. injection E as <-. cbn [In] in I. repeat destruct I as [<-|I]; reflexivity || destruct I.
    - exists $"Linux". split; [exact G1|]. split; [discriminate|]. cbn. intros H. repeat destruct H as [H|H]; discriminate || contradiction. }
  split; [apply Md; [reflexivity|reflexivity|vm_compute; reflexivity]|]. split; [left; reflexivity|].
  split; [apply Md; [reflexivity|reflexivity|vm_compute; reflexivity]|]. eexists. split; [reflexivity|]. cbn [In]. auto.
Qed.

Print Assumptions c148_answers.
Print Assumptions c148_reporters.
Print Assumptions c148_tests.
