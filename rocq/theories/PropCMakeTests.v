(** * C146: the tests of what is scaffolded are built and run *)
From Coq Require Import Permutation.
From Verif Require Import Base BaseFacts ModelScaffold SpecScaffold PropScaffold ModelCMake ModelCMakeTexts ModelCMakeConfig SpecCMake ModelRuleTable ProofCMake ProofCMakeConfig ProofCMakeRules ProofCMakeRoot ProofCMakeTests PropCMake.

(** ** The tree of directories *)
Definition words_of (c : command) : list str := map (fun a => expand (fun _ => None) (a_text a)) (c_args c).
Definition program_of (c : command) : program := match words_of c with n :: l => (n, l) | [] => ([], []) end.
Fixpoint items_of (cuda : bool) (l : list command) : list item :=
  match l with
  | [] => []
  | c :: r => if called $"if" c then items_of true r else if called $"endif" c then items_of false r else (cuda, program_of c) :: items_of cuda r
  end.
Definition commands_at (p : str) : list command := match commands_in (text_of rules_lists p) with Some l => l | None => [] end.
Definition shipped_tests : list tests_dir := Eval vm_compute in
  map (fun c => (c, items_of false (commands_at ($"test/" ++ c ++ $"/CMakeLists.txt"))))
      (flat_map words_of (skipn (length test_head) (commands_at $"test/CMakeLists.txt"))).
Lemma test_root_commands : commands_in (text_of rules_lists $"test/CMakeLists.txt") = Some (test_head ++ map dir_call (map fst shipped_tests)).
Proof. vm_compute. reflexivity. Qed.
Lemma shipped_test_commands : map (fun d => commands_in (text_of rules_lists ($"test/" ++ fst d ++ $"/CMakeLists.txt"))) shipped_tests
  = map (fun d => Some (flat_map item_commands (snd d))) shipped_tests.
Proof. vm_compute. reflexivity. Qed.

Fixpoint tadd (c : str) (is : list item) (D : list tests_dir) : list tests_dir :=
  match D with
  | [] => [(c, is)]
  | d :: D => if str_eqb (fst d) c then (c, snd d ++ is) :: D else d :: tadd c is D
  end.
Lemma active_app : forall cuda a b, active cuda (a ++ b) = active cuda a ++ active cuda b.
Proof. intros cuda a b. unfold active. rewrite filter_app, map_app. reflexivity. Qed.
Lemma tadd_programs : forall cuda c is D, Permutation (all_programs cuda (tadd c is D)) (active cuda is ++ all_programs cuda D).
Proof.
  intros cuda c is D. induction D as [|[x l] D IH]; [cbn; apply Permutation_refl|]. cbn [tadd fst snd]. destruct (str_eqb x c).
  - change (all_programs cuda ((c, l ++ is) :: D)) with (active cuda (l ++ is) ++ all_programs cuda D).
    change (all_programs cuda ((x, l) :: D)) with (active cuda l ++ all_programs cuda D).
    rewrite active_app, !app_assoc. apply Permutation_app_tail, Permutation_app_comm.
  - change (all_programs cuda ((x, l) :: tadd c is D)) with (active cuda l ++ all_programs cuda (tadd c is D)).
    change (all_programs cuda ((x, l) :: D)) with (active cuda l ++ all_programs cuda D).
    eapply Permutation_trans; [apply Permutation_app_head, IH|]. rewrite !app_assoc. apply Permutation_app_tail, Permutation_app_comm.
Qed.
Lemma tadd_names : forall c is D, (In c (map fst D) -> map fst (tadd c is D) = map fst D) /\ (~ In c (map fst D) -> map fst (tadd c is D) = map fst D ++ [c]).
Proof.
  intros c is D. induction D as [|[x gs] D [IH1 IH2]]; cbn [map tadd fst]; [split; [intros []|reflexivity]|]. split; intros I.
  - destruct (str_eqb x c) eqn:E; [apply str_eqb_eq in E; subst; reflexivity|]. cbn [map fst]. f_equal. apply IH1. destruct I as [->|I]; [|exact I].
    rewrite str_eqb_refl in E. discriminate.
  - destruct (str_eqb x c) eqn:E; [apply str_eqb_eq in E; subst; exfalso; apply I; left; reflexivity|]. cbn [map fst]. rewrite IH2; [reflexivity|].
    intros J. apply I. right. exact J.
Qed.
Definition thas (D : list tests_dir) (c : str) (i : item) : Prop := exists l, In (c, l) D /\ In i l.
Lemma tadd_has : forall c is D c' i, thas (tadd c is D) c' i <-> thas D c' i \/ (c' = c /\ In i is).
Proof.
  intros c is D c' i. induction D as [|[x gs] D IH]; cbn [tadd fst snd].
  - split.
    + intros (l & [E|[]] & I). injection E as <- <-. auto.
    + intros [(l & [] & _)|[-> I]]. exists is. split; [left; reflexivity|exact I].
  - assert (H : forall y hs E, thas ((y, hs) :: E) c' i <-> (y = c' /\ In i hs) \/ thas E c' i).
    { intros y hs E. split.
      - intros (gs' & [X|I] & J); [injection X as -> ->; left; auto|right; exists gs'; auto].
      - intros [[-> J]|(gs' & I & J)]; [exists hs; split; [left; reflexivity|exact J]|exists gs'; split; [right; exact I|exact J]]. }
    destruct (str_eqb x c) eqn:E.
    + apply str_eqb_eq in E. subst x. rewrite !H, in_app_iff. intuition (subst; auto).
    + rewrite !H, IH. tauto.
Qed.
Lemma tadd_in : forall c is D d, NoDup (map fst D) -> In d (tadd c is D) ->
  (In d D /\ fst d <> c) \/ (exists gs, In (c, gs) D /\ d = (c, gs ++ is)) \/ (~ In c (map fst D) /\ d = (c, is)).
Proof.
  intros c is D d. induction D as [|[x gs] D IH]; cbn [tadd map fst snd]; intros N I.
  - destruct I as [<-|[]]. right. right. split; [intros []|reflexivity].
  - inversion_clear N as [|? ? Nx Nd]. destruct (str_eqb x c) eqn:E.
    + apply str_eqb_eq in E. subst x. destruct I as [<-|I].
      * right. left. exists gs. split; [left; reflexivity|reflexivity].
      * left. split; [right; exact I|]. intros <-. apply Nx, in_map, I.
    + apply str_eqb_neq in E. destruct I as [<-|I]; [left; split; [left; reflexivity|exact E]|].
      destruct (IH Nd I) as [[J K]|[(hs & J & K)|[J K]]].
      * left. split; [right; exact J|exact K].
      * right. left. exists hs. split; [right; exact J|exact K].
      * right. right. split; [intros [H|H]; [contradiction|apply J, H]|exact K].
Qed.

(** ** What holds between the steps of a history *)
Definition tests_root (project : str) : str := project ++ $"/test".
Record test_tree (project : str) (D : list tests_dir) (g : files) : Prop := {
  q_root : exists text, g (project ++ $"/test/CMakeLists.txt") = Some text /\ commands_in text = Some (test_head ++ map dir_call (map fst D));
  q_lists : Forall (tests_ok g (tests_root project)) D;
  q_names : NoDup (map fst D);
  q_none : forall c, plain_directory c -> ~ In c (map fst D) -> g (list_of_category (tests_root project) c) = None;
  q_sources : forall c i x, thas D c i -> In x (snd (snd i)) -> g (project ++ $"/test/" ++ c ++ $"/" ++ x) <> None
}.
Lemma test_list_under : forall project c, list_of_category (tests_root project) c = project ++ ($"/test/" ++ c) ++ $"/CMakeLists.txt".
Proof. intros project c. unfold list_of_category, tests_root. rewrite <- !app_assoc. reflexivity. Qed.
Definition middle_test (e : str) : str := firstn (length e - 20) (skipn 5 e).
Lemma middle_test_is : forall c, middle_test ($"test/" ++ c ++ $"/CMakeLists.txt") = c.
Proof.
  intros c. unfold middle_test. rewrite !app_length. change (length $"test/") with 5. change (length $"/CMakeLists.txt") with 15.
  replace (5 + (length c + 15) - 20) with (length c) by lia. change (skipn 5 ($"test/" ++ c ++ $"/CMakeLists.txt")) with (c ++ $"/CMakeLists.txt").
  rewrite firstn_app, Nat.sub_diag, firstn_all. cbn [firstn]. apply app_nil_r.
Qed.
Lemma shipped_test_dirs : forall c, In ($"test/" ++ c ++ $"/CMakeLists.txt") (map fst rules_lists) -> In c (map fst shipped_tests).
Proof.
  assert (H : forallb (fun e => negb (str_eqb e ($"test/" ++ middle_test e ++ $"/CMakeLists.txt")) || existsb (str_eqb (middle_test e)) (map fst shipped_tests))
                (map fst rules_lists) = true) by (vm_compute; reflexivity).
  intros c I. rewrite forallb_forall in H. specialize (H _ I). rewrite middle_test_is, str_eqb_refl in H. cbn [negb orb] in H.
  apply existsb_exists in H as (x & J & E). apply str_eqb_eq in E. subst x. exact J.
Qed.
Definition program_okb (p : program) : bool := name_likeb (fst p) && negb (match snd p with [] => true | _ => false end) && forallb name_likeb (snd p).
Lemma program_okb_is : forall p, program_okb p = true -> program_ok p.
Proof.
  intros p H. apply andb_true_iff in H as [H C]. apply andb_true_iff in H as [A B]. split; [apply name_likeb_is, A|]. split; [destruct (snd p); discriminate|].
  rewrite forallb_forall in C. apply Forall_forall. intros n I. apply name_likeb_is, C, I.
Qed.
Lemma start_tests : forall project f, checkout project f -> test_tree project shipped_tests f.
Proof.
  intros project f C. split.
  - eexists. split; [apply (listed_text project f $"test/CMakeLists.txt" C); cbn [map fst rules_lists In]; listed_member|]. exact test_root_commands.
  - assert (G : forallb (fun d => name_likeb (fst d) && forallb (fun i => program_okb (snd i)) (snd d)) shipped_tests = true) by (vm_compute; reflexivity).
    assert (L : forallb (fun d => existsb (str_eqb ($"test/" ++ fst d ++ $"/CMakeLists.txt")) (map fst rules_lists)) shipped_tests = true) by (vm_compute; reflexivity).
    rewrite forallb_forall in G, L. apply Forall_forall. intros [c gs] I. specialize (G _ I). specialize (L _ I). cbn [fst snd] in *. apply andb_true_iff in G as [G1 G2].
    split; [apply name_likeb_is, G1|]. split; [rewrite forallb_forall in G2; apply Forall_forall; intros g J; apply program_okb_is, G2, J|].
    exists (text_of rules_lists ($"test/" ++ c ++ $"/CMakeLists.txt")). split.
    + apply existsb_exists in L as (x & J & E). apply str_eqb_eq in E. subst x. rewrite <- (listed_text project f _ C J). f_equal.
      cbn [fst]. unfold list_of_category, tests_root. rewrite <- !app_assoc. reflexivity.
    + assert (S : forall l, map (fun d : tests_dir => commands_in (text_of rules_lists ($"test/" ++ fst d ++ $"/CMakeLists.txt"))) l
                  = map (fun d => Some (flat_map item_commands (snd d))) l -> In (c, gs) l ->
                  commands_in (text_of rules_lists ($"test/" ++ c ++ $"/CMakeLists.txt")) = Some (flat_map item_commands gs)).
      { induction l as [|d l IH]; [intros _ []|]. cbn [map]. intros E [->|J]; [injection E as E _; exact E|injection E as _ E; exact (IH E J)]. }
      exact (S _ shipped_test_commands I).
  - assert (N : NoDup (nodup (list_eq_dec ascii_dec) (map fst shipped_tests))) by apply NoDup_nodup.
    replace (nodup (list_eq_dec ascii_dec) (map fst shipped_tests)) with (map fst shipped_tests) in N by (vm_compute; reflexivity). exact N.
  - intros c P I. destruct (f (list_of_category (tests_root project) c)) eqn:E; [|reflexivity]. exfalso. apply I, shipped_test_dirs.
    replace ($"test/" ++ c ++ $"/CMakeLists.txt") with (($"test/" ++ c) ++ $"/CMakeLists.txt") by (rewrite <- app_assoc; reflexivity).
    apply C. rewrite test_list_under in E. change ($"/test/" ++ c) with ($"/" ++ $"test/" ++ c) in E.
    rewrite <- !app_assoc in E. rewrite <- !app_assoc. rewrite E. discriminate.
  - assert (S : forallb (fun d => forallb (fun i => forallb (fun x => existsb (str_eqb ($"test/" ++ fst d ++ $"/" ++ x)) rules_sources) (snd (snd i))) (snd d)) shipped_tests = true)
      by (vm_compute; reflexivity).
    intros c i x (gs & I & J) K. rewrite forallb_forall in S. specialize (S _ I). cbn [fst snd] in S. rewrite forallb_forall in S. specialize (S _ J).
    rewrite forallb_forall in S. specialize (S _ K). apply existsb_exists in S as (y & Y & E). apply str_eqb_eq in E. subst y. apply C in Y. exact Y.
Qed.

Lemma rule_test_list_is : forall project a, rule_test_list project a = list_of_category (tests_root project) (ra_category a).
Proof. intros project a. unfold rule_test_list, list_of_category, tests_root. rewrite <- !app_assoc. reflexivity. Qed.
Lemma other_test_list : forall project a c, c <> ra_category a -> ~ In (list_of_category (tests_root project) c) (six project a).
Proof.
  intros project a c N I. cbn [six In] in I. rewrite test_list_under in I.
  assert (X : project ++ ($"/test/" ++ c) ++ $"/CMakeLists.txt" = (project ++ $"/test/" ++ c ++ $"/") ++ $"CMakeLists.txt") by (rewrite <- !app_assoc; reflexivity).
  destruct I as [E|[E|[E|[E|[E|[E|[]]]]]]].
  - apply app_inv_head in E. discriminate.
  - rewrite X in E. unfold rule_test_file in E. rewrite !app_assoc in E. symmetry in E. revert E. rewrite <- (app_assoc _ c). apply ends_apart_test.
  - apply app_inv_head in E. discriminate.
  - apply app_inv_head in E. rewrite <- app_assoc in E. apply app_inv_head, app_inv_tail in E. congruence.
  - apply app_inv_head in E. discriminate.
  - apply app_inv_head in E. rewrite <- app_assoc in E. apply (app_inv_head $"/test/") in E.
    apply (f_equal (@length ascii)) in E. rewrite app_length in E. cbn in E. lia.
Qed.
(** What a rule with a test adds. *)
Definition rule_items (a : ruleargs) : list item :=
  if ra_test a then [(false, (ra_class_name a ++ $"RuleTest", [ra_class_name a ++ $"RuleTest.cpp"]))] else [].
Lemma test_tree_step : forall project D a g h, test_tree project D g -> buildable a -> effects project a g h ->
  test_tree project (tadd (ra_category a) (rule_items a) D) h.
Proof.
  intros project D a g h T (Sa & Ty & Pc & _) E. set (c := ra_category a) in *. set (n := ra_class_name a) in *. set (is := rule_items a).
  pose proof (class_letters a Sa) as Ln. fold n in Ln. pose proof (plain_name c Pc) as Lc.
  assert (Go : Forall (fun i => program_ok (snd i)) is).
  { unfold is, rule_items. destruct (ra_test a); [|constructor]. fold n. pose proof (proj2 (letters_name n Ln)) as N. destruct Ln as [Xn _].
    constructor; [|constructor]. cbn [snd fst]. split; [split; [apply app_not_nil; left; exact Xn|cbn [fst]; words]|]. split; [discriminate|]. cbn [snd].
    constructor; [|constructor]. split; [apply app_not_nil; left; exact Xn|words]. }
  assert (St : forall text l, commands_in text = Some l -> commands_in (text ++ if ra_test a then test_step a else []) = Some (l ++ flat_map item_commands is)).
  { intros text l C. unfold is, rule_items. fold n. destruct (ra_test a); [|cbn [flat_map]; rewrite !app_nil_r; exact C].
    cbn [flat_map]. rewrite app_nil_r. change (test_step a) with (NL :: $"BUILD_TEST(" ++ n ++ $"RuleTest" ++ [NL] ++ n ++ $"RuleTest.cpp)" ++ [NL]).
    apply commands_more; [exact C|]. exact (test_step_commands n Ln). }
  assert (Dec : In c (map fst D) \/ ~ In c (map fst D)) by (destruct (in_dec (list_eq_dec ascii_dec) c (map fst D)); auto).
  assert (Lk : forall gs, In (c, gs) D -> exists text, g (rule_test_list project a) = Some text /\ commands_in text = Some (flat_map item_commands gs) /\ Forall (fun i => program_ok (snd i)) gs).
  { intros gs I. pose proof (q_lists _ _ _ T) as L. rewrite Forall_forall in L. destruct (L _ I) as (_ & G & text & A & C). exists text. rewrite rule_test_list_is. auto. }
  split.
  - destruct (q_root _ _ _ T) as (text & Rt & Rc). change (project ++ $"/test/CMakeLists.txt") with (all_tests_list project) in *. destruct Dec as [I|I].
    + exists text. split; [|rewrite (proj1 (tadd_names c is D) I); exact Rc]. rewrite (e_test_root _ _ _ _ E).
      apply in_map_iff in I as ([c' gs] & Ec & I). cbn [fst] in Ec. subst c'. destruct (Lk gs I) as (t' & -> & _). exact Rt.
    + exists (text ++ directory_step a). split.
      * rewrite (e_test_root _ _ _ _ E). rewrite rule_test_list_is. fold c. rewrite (q_none _ _ _ T c Pc I). unfold text_at. rewrite Rt. reflexivity.
      * rewrite (proj2 (tadd_names c is D) I), map_app, app_assoc. change (directory_step a) with (NL :: $"ADD_SUBDIRECTORY(" ++ c ++ $")" ++ [NL]).
        apply commands_more; [exact Rc|].
        change ($"ADD_SUBDIRECTORY(" ++ c ++ $")" ++ [NL]) with ($"ADD_SUBDIRECTORY" ++ $"(" ++ c ++ $")" ++ [NL]).
        change (map dir_call [c]) with [call (map tolower $"ADD_SUBDIRECTORY") [c]]. apply one_argument; [exact Lc| |discriminate].
        apply Forall_forall. intros x X. assert (Q : forallb (fun x => is_word x && negb (isdigit x)) $"ADD_SUBDIRECTORY" = true) by reflexivity.
        rewrite forallb_forall in Q. specialize (Q x X). apply andb_true_iff in Q as [Q1 Q2]. apply Bool.negb_true_iff in Q2. auto.
  - apply Forall_forall. intros d Id. apply (tadd_in c is D d (q_names _ _ _ T)) in Id as [[I N]|[(gs & I & ->)|[I ->]]].
    + pose proof (q_lists _ _ _ T) as L. rewrite Forall_forall in L. destruct (L _ I) as (A & G & text & Te & C). split; [exact A|]. split; [exact G|].
      exists text. split; [|exact C]. rewrite (e_other _ _ _ _ E); [exact Te|]. apply other_test_list, N.
    + destruct (Lk gs I) as (text & Te & C & G). split; [exact Lc|]. split; [apply Forall_app; split; [exact G|exact Go]|]. eexists. cbn [fst snd]. split.
      * replace (list_of_category (tests_root project) c) with (rule_test_list project a) by apply rule_test_list_is. rewrite (e_test_list _ _ _ _ E). unfold text_at. rewrite Te. reflexivity.
      * rewrite flat_map_app. apply St, C.
    + split; [exact Lc|]. split; [exact Go|]. eexists. cbn [fst snd]. split.
      * replace (list_of_category (tests_root project) c) with (rule_test_list project a) by apply rule_test_list_is. rewrite (e_test_list _ _ _ _ E). unfold text_at. rewrite rule_test_list_is. fold c. rewrite (q_none _ _ _ T c Pc I). reflexivity.
      * apply (St [] []). reflexivity.
  - destruct Dec as [I|I]; [rewrite (proj1 (tadd_names c is D) I); apply T|]. rewrite (proj2 (tadd_names c is D) I).
    pose proof (NoDup_rev (q_names _ _ _ T)) as N. rewrite <- (rev_involutive (map fst D ++ [c])). apply NoDup_rev. rewrite rev_app_distr. cbn [rev app].
    constructor; [rewrite <- in_rev; exact I|exact N].
  - intros x Px I. assert (X : x <> c /\ ~ In x (map fst D)).
    { destruct Dec as [J|J]; [rewrite (proj1 (tadd_names c is D) J) in I|rewrite (proj2 (tadd_names c is D) J), in_app_iff in I].
      - split; [congruence|exact I].
      - split; [intros ->; apply I; right; left; reflexivity|tauto]. }
    rewrite (e_other _ _ _ _ E) by (apply other_test_list, X). apply T; [exact Px|apply X].
  - intros x i y H Y. apply tadd_has in H as [H|[-> H]]; [apply (e_kept _ _ _ _ E); exact (q_sources _ _ _ T x i y H Y)|].
    unfold is, rule_items in H. destruct (ra_test a) eqn:Rt; [|destruct H]. destruct H as [<-|[]]. cbn [snd In] in Y. destruct Y as [<-|[]].
    exact (e_test_file _ _ _ _ E Rt).
Qed.
Lemma test_edited_step : forall project D g h, test_tree project D g -> edited project g h -> test_tree project D h.
Proof.
  intros project D g h T (L & K). split.
  - destruct (q_root _ _ _ T) as (text & A & C). exists text. split; [|exact C]. rewrite <- A. exact (L $"/test").
  - eapply Forall_impl; [|exact (q_lists _ _ _ T)]. intros d (A & G & text & Te & C). split; [exact A|]. split; [exact G|]. exists text. split; [|exact C].
    rewrite test_list_under in *. rewrite L. exact Te.
  - apply T.
  - intros c P I. rewrite test_list_under, L, <- test_list_under. apply T; assumption.
  - intros c i x H X. apply K. exact (q_sources _ _ _ T c i x H X).
Qed.
Definition grown_tests (l : list ruleargs) : list tests_dir := fold_left (fun D a => tadd (ra_category a) (rule_items a) D) l shipped_tests.
Lemma history_tests : forall project f l g, checkout project f -> history project f l g -> Forall buildable l -> test_tree project (grown_tests l) g.
Proof.
  intros project f l g C H. induction H as [|l f' g H IH E|l a f' g H IH R]; intros O.
  - apply start_tests, C.
  - apply (test_edited_step project _ f' g (IH O) E).
  - apply Forall_app in O as [O Oa]. inversion_clear Oa as [|? ? Ba' _]. destruct (history_tree _ _ _ _ C H O) as [Ba _].
    destruct (scaffolded project a f' Ba (proj1 Ba') (proj1 (proj2 Ba'))) as (h & R' & E). rewrite R in R'. injection R' as <-.
    unfold grown_tests. rewrite fold_left_app. cbn [fold_left]. apply (test_tree_step _ _ _ _ _ (IH O) Ba' E).
Qed.
Lemma grown_tests_has : forall l c i, thas (grown_tests l) c i <-> thas shipped_tests c i \/ exists a, In a l /\ ra_category a = c /\ In i (rule_items a).
Proof.
  intros l c i. unfold grown_tests. generalize shipped_tests as D. induction l as [|a l IH]; intros D; cbn [fold_left].
  - split; [auto|]. intros [H|(a & [] & _)]. exact H.
  - rewrite IH, tadd_has. split.
    + intros [[H|[-> H]]|(b & I & E)]; [left; exact H|right; exists a; split; [left; reflexivity|auto]|right; exists b; split; [right; exact I|exact E]].
    + intros [H|(b & [<-|I] & E1 & E2)]; [left; left; exact H|left; right; auto|right; exists b; auto].
Qed.
Lemma rule_items_active : forall cuda a, map fst (active cuda (rule_items a)) = map (fun n => n ++ $"RuleTest") (map ra_class_name (filter ra_test [a])).
Proof. intros cuda a. unfold rule_items. cbn [filter]. destruct (ra_test a); reflexivity. Qed.
Lemma grown_programs : forall cuda l, Permutation (map fst (all_programs cuda (grown_tests l)))
  (map (fun n => n ++ $"RuleTest") (map ra_class_name (filter ra_test l)) ++ map fst (all_programs cuda shipped_tests)).
Proof.
  intros cuda l. unfold grown_tests. generalize shipped_tests as D. induction l as [|a l IH]; intros D; [apply Permutation_refl|].
  cbn [fold_left]. eapply Permutation_trans; [apply IH|]. eapply Permutation_trans; [apply Permutation_app_head, Permutation_map, tadd_programs|].
  rewrite map_app, rule_items_active. change (filter ra_test (a :: l)) with (filter ra_test ([a] ++ l)). rewrite filter_app, !map_app, !app_assoc.
  apply Permutation_app_tail, Permutation_app_comm.
Qed.
Lemma tests_distinct : forall cuda l, new_tests l -> NoDup (test_static_names ++ map fst (all_programs cuda (grown_tests l))).
Proof.
  intros cuda l Nd. set (h := fun n : str => n ++ $"RuleTest").
  set (r := test_static_names ++ map fst (all_programs cuda shipped_tests)).
  assert (P : Permutation (test_static_names ++ map fst (all_programs cuda (grown_tests l))) (map h (map ra_class_name (filter ra_test l)) ++ r)).
  { eapply Permutation_trans; [apply Permutation_app_head, grown_programs|]. unfold r. rewrite !app_assoc. apply Permutation_app_tail, Permutation_app_comm. }
  eapply Permutation_NoDup; [apply Permutation_sym, P|].
  assert (Ns : NoDup r).
  { unfold r. pose proof (NoDup_nodup (list_eq_dec ascii_dec) (test_static_names ++ map fst (all_programs cuda shipped_tests))) as N.
    replace (nodup _ _) with (test_static_names ++ map fst (all_programs cuda shipped_tests)) in N by (destruct cuda; vm_compute; reflexivity). exact N. }
  assert (Sep : forall x, ~ In (h x) r).
  { assert (Z : forallb (fun e => negb (str_eqb (skipn (length e - 8) e) $"RuleTest")) r = true) by (unfold r; destruct cuda; vm_compute; reflexivity).
    rewrite forallb_forall in Z. intros x I. specialize (Z _ I). unfold h in Z. rewrite app_length in Z. change (length $"RuleTest") with 8 in Z.
    replace (length x + 8 - 8) with (length x) in Z by lia. rewrite skipn_app, skipn_all, Nat.sub_diag in Z. discriminate. }
  assert (Nh : NoDup (map h (map ra_class_name (filter ra_test l)))) by (apply nodup_map; [intros a b E; exact (app_inv_tail _ _ _ E)|exact Nd]).
  revert Sep Nh Ns. generalize (map ra_class_name (filter ra_test l)) as xs. generalize r. clear.
  intros r xs Sep Nh Ns. induction xs as [|x xs IH]; [exact Ns|]. cbn [map app] in *. inversion_clear Nh as [|? ? Nx Nh'].
  constructor; [intros I; apply in_app_iff in I as [I|I]; [contradiction|exact (Sep x I)]|]. apply IH, Nh'.
Qed.
Lemma thas_executable : forall libs cuda dir D c i, thas D c i -> (fst i = true -> cuda = true) ->
  In (executable libs (dir ++ $"/" ++ c) (snd i)) (all_executables libs cuda dir D) /\ In (snd i) (all_programs cuda D).
Proof.
  intros libs cuda dir D c i (l & I & J) Cu.
  assert (A : In (snd i) (active cuda l)).
  { unfold active. apply in_map, filter_In. split; [exact J|]. destruct (fst i); [rewrite Cu by reflexivity; reflexivity|reflexivity]. }
  split; apply in_flat_map; exists (c, l); (split; [exact I|]); [apply in_map, A|exact A].
Qed.
Lemma executable_thas : forall libs cuda dir D t, In t (all_executables libs cuda dir D) ->
  exists c i, thas D c i /\ t = executable libs (dir ++ $"/" ++ c) (snd i) /\ In (snd i) (all_programs cuda D).
Proof.
  intros libs cuda dir D t I. apply in_flat_map in I as ([c l] & I & J). cbn [fst snd] in J. apply in_map_iff in J as (p & <- & J).
  assert (K : In p (active cuda l)) by exact J. unfold active in J. apply in_map_iff in J as (i & <- & J). apply filter_In in J as [J _].
  exists c, i. split; [exists l; auto|]. split; [reflexivity|]. apply in_flat_map. exists (c, l). auto.
Qed.
Lemma on_true : forall given k, on given k -> exists x, given k = Some x /\ false_constant x = false.
Proof. intros given k (x & G & I). exists x. split; [exact G|]. cbn [In] in I. repeat destruct I as [<-|I]; reflexivity || destruct I. Qed.
Definition testish (p : str) : bool := str_eqb (firstn 5 p) $"test/" && str_eqb (skipn (length p - 8) p) $"Test.cpp".
Lemma testish_is : forall p, test_source p -> testish p = true.
Proof.
  intros p (r & ->). unfold testish. change (firstn 5 ($"test/" ++ r ++ $"Test.cpp")) with $"test/". rewrite str_eqb_refl. cbn [andb].
  rewrite app_assoc, app_length. change (length $"Test.cpp") with 8. replace (length ($"test/" ++ r) + 8 - 8) with (length ($"test/" ++ r)) by lia.
  rewrite skipn_app, skipn_all, Nat.sub_diag. reflexivity.
Qed.
Lemma shipped_sources : forall p, In p rules_sources -> test_source p ->
  p = $"test/CanaryTest.cpp" \/ exists c i x, thas shipped_tests c i /\ In x (snd (snd i)) /\ p = $"test/" ++ c ++ $"/" ++ x /\ (fst i = true -> In p cuda_tests).
Proof.
  assert (H : forallb (fun p => negb (testish p) || str_eqb p $"test/CanaryTest.cpp"
     || existsb (fun d => existsb (fun i => existsb (fun x => str_eqb p ($"test/" ++ fst d ++ $"/" ++ x) && (negb (fst i) || existsb (str_eqb p) cuda_tests)) (snd (snd i))) (snd d)) shipped_tests)
     rules_sources = true) by (vm_compute; reflexivity).
  intros p I T. rewrite forallb_forall in H. specialize (H p I). rewrite (testish_is p T) in H. cbn [negb orb] in H. apply Bool.orb_true_iff in H as [H|H].
  - left. apply str_eqb_eq, H.
  - right. apply existsb_exists in H as ([c l] & I1 & H). apply existsb_exists in H as (i & I2 & H). apply existsb_exists in H as (x & I3 & H).
    apply andb_true_iff in H as [E Cu]. apply str_eqb_eq in E. exists c, i, x. split; [exists l; auto|]. split; [exact I3|]. split; [exact E|].
    intros Fi. destruct i as [b pr]. cbn [fst snd] in *. subst b. cbn [negb orb] in Cu. apply existsb_exists in Cu as (y & Y & Ey). apply str_eqb_eq in Ey. subst y. exact Y.
Qed.
Lemma thas_ok : forall project D g c i, test_tree project D g -> thas D c i -> program_ok (snd i).
Proof.
  intros project D g c i T (l & I & J). pose proof (q_lists _ _ _ T) as L. rewrite Forall_forall in L. destruct (L _ I) as (_ & G & _).
  rewrite Forall_forall in G. exact (G i J).
Qed.

(** C146, the tests: whatever rules were asked for, with or without a test, and whatever was edited
    in between, configuring with TEST_BUILD gives one program for each test that was asked for and
    each that is shipped, runs every one of them, and builds nothing twice. *)
Lemma plain_list : forall l, forallb (forallb (fun c => negb (ascii_eqb c ";"%char))) l = true -> Forall (fun c => ~ In ";"%char c) l.
Proof.
  intros l H. apply Forall_forall. intros c I J. rewrite forallb_forall in H. specialize (H c I). rewrite forallb_forall in H. specialize (H _ J). discriminate.
Qed.
(** A path that ends in nvcc is no way to say no. *)
Lemma path_true : forall d, false_constant (d ++ $"nvcc") = false.
Proof.
  intros d.
  assert (L : forall s t, upper (d ++ $"nvcc") = s ++ t -> t <> [] -> last t "C"%char = "C"%char).
  { intros s t E N. assert (X : last (upper (d ++ $"nvcc")) "C"%char = "C"%char).
    { unfold upper. rewrite map_app. change (map toupper $"nvcc") with ($"NVC" ++ ["C"%char]). rewrite app_assoc. apply last_last. }
    rewrite E in X. clear E. induction s as [|c s IH]; [exact X|]. apply IH. destruct (s ++ t) eqn:Z; [destruct s; [contradiction|discriminate]|]. cbn [app] in X. rewrite Z in X. exact X. }
  unfold false_constant. apply Bool.orb_false_iff. split; [apply Bool.orb_false_iff; split|].
  - destruct d; reflexivity.
  - destruct (existsb _ _) eqn:E; [|reflexivity]. apply existsb_exists in E as (x & I & E). apply str_eqb_eq in E. specialize (L [] x E).
    cbn [In] in I. repeat destruct I as [<-|I]; try contradiction; specialize (L ltac:(discriminate)); discriminate L.
  - destruct (str_eqb _ _) eqn:E; [|reflexivity]. apply str_eqb_eq in E. set (n := length _ - 9) in E.
    specialize (L (firstn n (upper (d ++ $"nvcc"))) $"-NOTFOUND"). rewrite <- E in L at 1. rewrite firstn_skipn in L. specialize (L eq_refl ltac:(discriminate)). discriminate L.
Qed.

Theorem c146_tests : forall project binary e given f l g,
  machine $"OCLINT_RULES" project binary e given -> test_machine e given -> on given $"TEST_BUILD" ->
  checkout project f -> history project f l g -> Forall buildable l -> new_tests l ->
  exists s, configures g binary (oclint_config e) project given s
    /\ s_vars s $"CMAKE_TESTING_ENABLED" = Some $"1"
    /\ NoDup (map t_name (s_targets s))
    /\ (forall a, In a l -> ra_test a = true -> exists t, In t (s_targets s) /\ t_name t = ra_class_name a ++ $"RuleTest"
         /\ t_sources t = [project ++ $"/test/" ++ ra_category a ++ $"/" ++ ra_class_name a ++ $"RuleTest.cpp"] /\ test_program (binary ++ $"/bin") s t)
    /\ (forall p, In p rules_sources -> test_source p -> (In p cuda_tests -> e_program e $"nvcc" <> None) ->
         exists t, In t (s_targets s) /\ In (project ++ $"/" ++ p) (t_sources t) /\ test_program (binary ++ $"/bin") s t)
    /\ (forall t, In t (s_targets s) -> t_kind t = Executable -> test_program (binary ++ $"/bin") s t)
    /\ (forall t, In t (s_targets s) -> t_kind t <> Shared)
    /\ NoDup (map fst (s_tests s))
    /\ (forall n c, In (n, c) (s_tests s) -> c = [(binary ++ $"/bin") ++ $"/" ++ n] /\ exists t, In t (s_targets s) /\ t_name t = n /\ t_kind t = Executable).
Proof.
  intros project binary e given f l g M [Mn Mi Mv Mr] Tb C H O Nw. destruct (history_tree _ _ _ _ C H O) as [Ba _].
  pose proof (history_tests _ _ _ _ C H O) as T.
  destruct (machine_config _ _ _ _ _ M) as (v & Cv & _ & _ & Kv). destruct M as [Mp Mb _ Mk _ Mm].
  destruct (q_root _ _ _ T) as (text & Rt & Rc). destruct (on_true _ _ Tb) as (x & Gx & Fx). set (out := binary ++ $"/bin").
  assert (Gv : v $"TEST_BUILD" = Some x) by (rewrite Kv by (cbn; auto); exact Gx).
  assert (Kk : forall k, In k [$"TEST_BUILD"; $"EXECUTABLE_OUTPUT_PATH"; $"NVIDIA_NVCC_BIN"] -> llvm_keeps e k)
    by (intros k I a b; apply Mk; cbn [In] in *; tauto).
  destruct (config_tests e _ v Cv (Kk $"TEST_BUILD" ltac:(cbn; auto)) x Gx Fx) as (Gt & Te0 & Tc). specialize (Tc (Kk $"NVIDIA_NVCC_BIN" ltac:(cbn; auto)) Mv).
  assert (Mo : v $"EXECUTABLE_OUTPUT_PATH" = Some out) by exact (config_out e _ v Cv binary (Kk $"EXECUTABLE_OUTPUT_PATH" ltac:(cbn; auto)) eq_refl Mb).
  assert (Mq : no_semicolon out) by (intros I; apply in_app_iff in I as [I|I]; [exact (Mb I)|cbn in I; repeat destruct I as [I|I]; discriminate || contradiction]).
  set (cuda := match v $"TEST_CUDA" with Some x => negb (false_constant x) | None => false end).
  assert (Cu : e_program e $"nvcc" <> None -> cuda = true).
  { intros K. unfold cuda. rewrite Tc. destruct (e_program e $"nvcc") as [p|] eqn:Ep; [|congruence]. destruct (Mr _ _ Ep) as (d & ->). rewrite path_true. reflexivity. }
  pose proof (tests_distinct cuda l Nw) as Gd.
  assert (Ml' : forall k, In k other_libs -> no_keyword (listed_in v k)).
  { intros k I. unfold no_keyword, listed_in. cbn [other_libs In] in I. destruct I as [<-|[<-|[<-|[<-|[]]]]].
    - rewrite Gt. split; vm_compute; intros I; repeat destruct I as [I|I]; discriminate || contradiction.
    - rewrite (Kv $"PROFILE_RT_LIBS") by (cbn; auto). change (at_include $"OCLINT_RULES" project binary given $"PROFILE_RT_LIBS") with (given $"PROFILE_RT_LIBS"). rewrite Mi. split; intros [].
    - rewrite (config_clang e _ v Cv). split; vm_compute; intros I; repeat destruct I as [I|I]; discriminate || contradiction.
    - rewrite (config_llvm e _ v Cv). specialize (Mn llvm_components ltac:(apply (plain_list llvm_components eq_refl))). rewrite Forall_forall in Mn.
      rewrite elements_list by (apply Forall_forall; intros n N; destruct (Mn n N) as (N1 & N2 & _); split; assumption).
      split; intros I; destruct (Mn _ I) as (_ & _ & N1 & N2); congruence. }
  destruct (tests_configured g binary (oclint_config e) project (fun p I => b_upper _ _ Ba p (or_intror I)) given v Cv Mm out Mo Mq Ml' cuda eq_refl (grown_tests l) text x
              Gv Fx Rt Rc (q_lists _ _ _ T) (q_names _ _ _ T) Gd) as (libs & s & R & Ts & Te & Lv & Vs).
  fold (tests_root project) in Ts. set (D := grown_tests l) in *.
  assert (Prog : forall dir p, In p (canary :: all_programs cuda D) -> test_program out s (executable libs dir p)).
  { intros dir p I. split; [reflexivity| |].
    - cbn [executable t_links]. rewrite Lv. unfold test_libs. intros k K. rewrite !in_app_iff. cbn [In] in *. tauto.
    - rewrite Te. cbn [executable t_name]. apply (in_map (test_of out)) in I. exact I. }
  assert (Exe : forall c i, thas D c i -> (fst i = true -> cuda = true) -> exists t, In t (s_targets s) /\ t_name t = fst (snd i)
            /\ t_sources t = map (fun x => project ++ $"/test/" ++ c ++ $"/" ++ x) (snd (snd i)) /\ test_program out s t).
  { intros c i Hi Fi. destruct (thas_executable libs cuda (tests_root project) D c i Hi Fi) as [I1 I2]. eexists. split; [rewrite Ts, !in_app_iff; right; right; exact I1|].
    split; [reflexivity|]. split; [|apply Prog; right; exact I2]. cbn [executable t_sources]. apply map_ext_in. intros y Y.
    destruct (thas_ok _ _ _ _ _ T Hi) as (_ & _ & Ls). rewrite Forall_forall in Ls. rewrite join_name by exact (Ls y Y). unfold tests_root. rewrite <- !app_assoc. reflexivity. }
  assert (Where : forall t, In t (s_targets s) -> In t (statics project) \/ t = helper_library project \/ t = executable libs (tests_root project) canary
            \/ exists c i, thas D c i /\ t = executable libs (tests_root project ++ $"/" ++ c) (snd i) /\ In (snd i) (all_programs cuda D)).
  { intros t It. rewrite Ts, !in_app_iff in It. cbn [In] in It. destruct It as [It|[[<-|[<-|[]]]|It]]; auto. right. right. right. exact (executable_thas _ _ _ _ _ It). }
  assert (Canary : exists t, In t (s_targets s) /\ t = executable libs (tests_root project) canary) by (eexists; split; [rewrite Ts, !in_app_iff; right; left; right; left; reflexivity|reflexivity]).
  exists s. split; [|split; [rewrite Vs; exact Te0|split; [|split; [|split; [|split; [|split; [|split]]]]]]].
  - apply (configure_done _ _ _ _ _ _ root_commands s (b_upper _ _ Ba $"CMakeLists.txt" (or_introl eq_refl)) (proj1 upper_lists) R).
    intros t y It Iy. apply Where in It as [It|[->|[->|(c & i & Hi & -> & _)]]].
    + exact (static_sources _ _ _ _ Ba It Iy).
    + cbn [helper_library static_library t_sources map In] in Iy. destruct Iy as [<-|[]].
      assert (J : join (project ++ $"/test") $"headers/TestRuleOnCode.cpp" = project ++ $"/" ++ $"test/headers/TestRuleOnCode.cpp")
        by (change (join (project ++ $"/test") $"headers/TestRuleOnCode.cpp") with ((project ++ $"/test") ++ $"/" ++ $"headers/TestRuleOnCode.cpp"); rewrite <- app_assoc; reflexivity).
      rewrite J.
      apply Ba. cbn [rules_sources In]. listed_member.
    + cbn [executable canary t_sources snd map In] in Iy. destruct Iy as [<-|[]].
      assert (J : join (tests_root project) $"CanaryTest.cpp" = project ++ $"/" ++ $"test/CanaryTest.cpp")
        by (change (join (tests_root project) $"CanaryTest.cpp") with ((project ++ $"/test") ++ $"/" ++ $"CanaryTest.cpp"); rewrite <- app_assoc; reflexivity).
      rewrite J.
      apply Ba. cbn [rules_sources In]. listed_member.
    + cbn [executable t_sources] in Iy. apply in_map_iff in Iy as (z & <- & Iz). destruct (thas_ok _ _ _ _ _ T Hi) as (_ & _ & Ls). rewrite Forall_forall in Ls.
      rewrite join_name by exact (Ls z Iz). unfold tests_root. rewrite <- !app_assoc. exact (q_sources _ _ _ T c i z Hi Iz).
  - rewrite Ts, !map_app, executables_names. exact Gd.
  - intros a I Ta. assert (Hi : thas D (ra_category a) (false, (ra_class_name a ++ $"RuleTest", [ra_class_name a ++ $"RuleTest.cpp"]))).
    { apply grown_tests_has. right. exists a. split; [exact I|]. split; [reflexivity|]. unfold rule_items. rewrite Ta. left. reflexivity. }
    destruct (Exe _ _ Hi) as (t & It & Nt & St & Pt); [discriminate|]. exists t. auto.
  - intros p I Tp Cp. destruct (shipped_sources p I Tp) as [->|(c & i & y & Hi & Iy & Ep & Fi)].
    + destruct Canary as (t & It & ->). eexists. split; [exact It|]. split; [|apply Prog; left; reflexivity].
      left. change (join (tests_root project) $"CanaryTest.cpp") with ((project ++ $"/test") ++ $"/" ++ $"CanaryTest.cpp"). rewrite <- app_assoc. reflexivity.
    + destruct (Exe c i) as (t & It & _ & St & Pt); [apply grown_tests_has; left; exact Hi|intros K; apply Cu, Cp, Fi, K|]. exists t. split; [exact It|]. split; [|exact Pt].
      rewrite St, Ep. change ($"/" ++ $"test/" ++ c ++ $"/" ++ y) with ($"/test/" ++ c ++ $"/" ++ y).
      exact (in_map (fun x => project ++ $"/test/" ++ c ++ $"/" ++ x) _ _ Iy).
  - intros t It K. apply Where in It as [It|[->|[->|(c & i & Hi & -> & Ip)]]].
    + exfalso. cbn [statics In] in It. destruct It as [<-|[<-|[<-|[]]]]; discriminate.
    + discriminate.
    + apply Prog. left. reflexivity.
    + apply Prog. right. exact Ip.
  - intros t It K. apply Where in It as [It|[->|[->|(c & i & Hi & -> & Ip)]]]; try discriminate.
    cbn [statics In] in It. destruct It as [<-|[<-|[<-|[]]]]; discriminate.
  - rewrite Te, map_map. change (map (fun p => fst (test_of out p)) (canary :: all_programs cuda D)) with ($"CanaryTest" :: map fst (all_programs cuda D)).
    unfold test_static_names in Gd. change (static_names ++ [$"test_helper"; $"CanaryTest"]) with ((static_names ++ [$"test_helper"]) ++ [$"CanaryTest"]) in Gd.
    rewrite <- app_assoc in Gd. revert Gd. generalize (static_names ++ [$"test_helper"]) as r. cbn [app].
    induction r as [|y r IH]; [auto|]. cbn [app]. intros N. inversion_clear N as [|? ? _ N']. exact (IH N').
  - intros n c I. rewrite Te in I. apply in_map_iff in I as (p & E & I). unfold test_of in E. injection E as <- <-. split; [reflexivity|].
    destruct I as [<-|I]; [destruct Canary as (t & It & ->); eexists; split; [exact It|auto]|].
    apply in_flat_map in I as ([d is] & I & J). eexists. split; [rewrite Ts, !in_app_iff; right; right; apply in_flat_map; exists (d, is); split; [exact I|apply in_map, J]|auto].
Qed.
Print Assumptions c146_tests.
