(** * C146: what is scaffolded is built *)
From Coq Require Import Permutation.
From Verif Require Import Base BaseFacts ModelScaffold SpecScaffold PropScaffold ModelCMake ModelCMakeTexts ModelCMakeConfig SpecCMake ModelRuleTable ProofCMake ProofCMakeConfig ProofCMakeRules ProofCMakeRoot.

(** ** The tree of categories *)
Definition listed (c : str) : list str :=
  match commands_in (text_of rules_lists ($"rules/" ++ c ++ $"/CMakeLists.txt")) with
  | Some (k :: _) => tl (map (fun a => expand (fun _ => None) (a_text a)) (c_args k))
  | _ => []
  end.
Definition shipped_tree : list category := Eval vm_compute in map (fun c => (c, [($"LIST_OF_RULES", listed c)])) categories.
Lemma shipped_commands : map (fun d => commands_in (text_of rules_lists ($"rules/" ++ fst d ++ $"/CMakeLists.txt"))) shipped_tree
  = map (fun d => Some (flat_map group_commands (snd d))) shipped_tree.
Proof. vm_compute. reflexivity. Qed.

(** It lists what the table of rules says is built. *)
Lemma shipped_built : forall c n, (exists gs, In (c, gs) shipped_tree /\ In n (classes gs)) <->
  exists r, In r shipped_rules /\ sh_built r = true /\ sh_directory r = c /\ sh_file r = n ++ $"Rule.cpp".
Proof.
  assert (A : forallb (fun d => forallb (fun n => existsb (fun r => sh_built r && str_eqb (sh_directory r) (fst d) && str_eqb (sh_file r) (n ++ $"Rule.cpp")) shipped_rules)
                         (classes (snd d))) shipped_tree = true) by (vm_compute; reflexivity).
  assert (B : forallb (fun r => negb (sh_built r) || existsb (fun d => str_eqb (sh_directory r) (fst d)
                         && existsb (fun n => str_eqb (sh_file r) (n ++ $"Rule.cpp")) (classes (snd d))) shipped_tree) shipped_rules = true) by (vm_compute; reflexivity).
  rewrite forallb_forall in A, B. intros c n. split.
  - intros (gs & I & J). specialize (A _ I). cbn [fst snd] in A. rewrite forallb_forall in A. specialize (A _ J). apply existsb_exists in A as (r & R & A).
    apply andb_true_iff in A as [A A3]. apply andb_true_iff in A as [A1 A2]. apply str_eqb_eq in A2, A3. exists r. auto.
  - intros (r & R & Bu & <- & Fi). specialize (B _ R). rewrite Bu in B. cbn [negb orb] in B. apply existsb_exists in B as ([c gs] & I & B).
    apply andb_true_iff in B as [B1 B2]. apply str_eqb_eq in B1. cbn [fst snd] in *. apply existsb_exists in B2 as (m & J & B2). apply str_eqb_eq in B2.
    rewrite Fi in B2. apply app_inv_tail in B2. subst m. exists gs. rewrite B1. auto.
Qed.

Fixpoint add (c n : str) (D : list category) : list category :=
  match D with
  | [] => [(c, [(build_variable n, [n])])]
  | d :: D => if str_eqb (fst d) c then (c, snd d ++ [(build_variable n, [n])]) :: D else d :: add c n D
  end.
Lemma add_classes : forall c n D, Permutation (tree_classes (add c n D)) (n :: tree_classes D).
Proof.
  intros c n D. induction D as [|[x gs] D IH]; [apply Permutation_refl|]. cbn [add fst snd]. destruct (str_eqb x c).
  - change (tree_classes ((c, gs ++ [(build_variable n, [n])]) :: D)) with (classes (gs ++ [(build_variable n, [n])]) ++ tree_classes D).
    unfold classes. rewrite flat_map_app, <- app_assoc. cbn [flat_map snd app]. apply Permutation_sym, Permutation_middle.
  - change (tree_classes ((x, gs) :: add c n D)) with (classes gs ++ tree_classes (add c n D)).
    eapply Permutation_trans; [apply Permutation_app_head, IH|]. apply Permutation_sym, Permutation_middle.
Qed.
Lemma add_names : forall c n D, (In c (map fst D) -> map fst (add c n D) = map fst D) /\ (~ In c (map fst D) -> map fst (add c n D) = map fst D ++ [c]).
Proof.
  intros c n D. induction D as [|[x gs] D [IH1 IH2]]; cbn [map add fst]; [split; [intros []|reflexivity]|]. split; intros I.
  - destruct (str_eqb x c) eqn:E; [apply str_eqb_eq in E; subst; reflexivity|]. cbn [map fst]. f_equal. apply IH1. destruct I as [->|I]; [|exact I].
    rewrite str_eqb_refl in E. discriminate.
  - destruct (str_eqb x c) eqn:E; [apply str_eqb_eq in E; subst; exfalso; apply I; left; reflexivity|]. cbn [map fst]. rewrite IH2; [reflexivity|].
    intros J. apply I. right. exact J.
Qed.
Definition has (D : list category) (c n : str) : Prop := exists gs, In (c, gs) D /\ In n (classes gs).
Lemma add_has : forall c n D c' n', has (add c n D) c' n' <-> has D c' n' \/ (c' = c /\ n' = n).
Proof.
  intros c n D c' n'. induction D as [|[x gs] D IH]; cbn [add fst snd].
  - split.
    + intros (gs & [E|[]] & I). injection E as <- <-. cbn in I. destruct I as [->|[]]. right. auto.
    + intros [(gs & [] & _)|[-> ->]]. exists [(build_variable n, [n])]. split; [left; reflexivity|left; reflexivity].
  - assert (H : forall y hs E, has ((y, hs) :: E) c' n' <-> (y = c' /\ In n' (classes hs)) \/ has E c' n').
    { intros y hs E. split.
      - intros (gs' & [X|I] & J); [injection X as -> ->; left; auto|right; exists gs'; auto].
      - intros [[-> J]|(gs' & I & J)]; [exists hs; split; [left; reflexivity|exact J]|exists gs'; split; [right; exact I|exact J]]. }
    destruct (str_eqb x c) eqn:E.
    + apply str_eqb_eq in E. subst x. rewrite !H. unfold classes. rewrite flat_map_app, in_app_iff. cbn [flat_map snd app In]. intuition (subst; auto).
    + rewrite !H, IH. tauto.
Qed.

(** ** What holds between the steps of a history *)
Definition rules_dir (project : str) : str := project ++ $"/rules".
Record base (project : str) (g : files) : Prop := {
  b_upper : forall p, In p [$"CMakeLists.txt"; $"lib/CMakeLists.txt"; $"lib/helper/CMakeLists.txt"; $"lib/util/CMakeLists.txt"] ->
            g (project ++ $"/" ++ p) = Some (text_of rules_lists p);
  b_sources : forall p, In p rules_sources -> g (project ++ $"/" ++ p) <> None;
  b_templates : forall p t, In (p, t) rules_templates -> g (project ++ $"/" ++ p) <> None
}.
Record tree (project : str) (D : list category) (g : files) : Prop := {
  r_root : exists text, g (project ++ $"/rules/CMakeLists.txt") = Some text
             /\ commands_in text = Some (macro_definitions ++ map category_call (map fst D));
  r_lists : Forall (category_ok g (rules_dir project)) D;
  r_names : NoDup (map fst D);
  r_none : forall c, plain_directory c -> ~ In c (map fst D) -> g (list_of_category (rules_dir project) c) = None;
  r_sources : forall c n, has D c n -> g (project ++ $"/rules/" ++ c ++ $"/" ++ n ++ $"Rule.cpp") <> None
}.
Lemma plain_name : forall c, plain_directory c -> name_like c.
Proof.
  intros c [N F]. split; [exact N|]. eapply Forall_impl; [|exact F]. intros x H. unfold name_char, is_word. cbv beta in H.
  destruct H as [->|[->|H]]; [reflexivity|rewrite Bool.orb_true_r; reflexivity|]. cbn in H. destruct H as [<-|[<-|[<-|[]]]]; reflexivity.
Qed.
Lemma list_under : forall project c, list_of_category (rules_dir project) c = project ++ ($"/rules/" ++ c) ++ $"/CMakeLists.txt".
Proof. intros project c. unfold list_of_category, rules_dir. rewrite <- !app_assoc. reflexivity. Qed.

Lemma text_known : forall p t, In (p, t) rules_lists -> text_of rules_lists p = t.
Proof.
  assert (H : forallb (fun e => str_eqb (text_of rules_lists (fst e)) (snd e)) rules_lists = true) by (vm_compute; reflexivity).
  intros p t I. rewrite forallb_forall in H. apply str_eqb_eq, (H _ I).
Qed.
Lemma listed_text : forall project f p, checkout project f -> In p (map fst rules_lists) -> f (project ++ $"/" ++ p) = Some (text_of rules_lists p).
Proof.
  intros project f p (L & _) I. apply in_map_iff in I as ([p' t] & <- & I). cbn [fst]. rewrite (text_known _ _ I). apply L, in_or_app. left. exact I.
Qed.
Ltac listed_member := repeat (first [left; reflexivity | right]).
Lemma start_base : forall project f, checkout project f -> base project f.
Proof.
  intros project f C. split.
  - intros p I. apply listed_text; [exact C|]. cbn [In] in I. destruct I as [<-|[<-|[<-|[<-|[]]]]]; cbn [map fst rules_lists In]; listed_member.
  - apply C.
  - intros p t I. rewrite (proj1 C p t) by (apply in_or_app; right; exact I). discriminate.
Qed.
Definition middle (e : str) : str := firstn (length e - 21) (skipn 6 e).
Lemma middle_is : forall c, middle ($"rules/" ++ c ++ $"/CMakeLists.txt") = c.
Proof.
  intros c. unfold middle. rewrite !app_length. change (length $"rules/") with 6. change (length $"/CMakeLists.txt") with 15.
  replace (6 + (length c + 15) - 21) with (length c) by lia. change (skipn 6 ($"rules/" ++ c ++ $"/CMakeLists.txt")) with (c ++ $"/CMakeLists.txt").
  rewrite firstn_app, Nat.sub_diag, firstn_all. cbn [firstn]. apply app_nil_r.
Qed.
Lemma shipped_categories : forall c, In ($"rules/" ++ c ++ $"/CMakeLists.txt") (map fst rules_lists) -> In c (map fst shipped_tree).
Proof.
  assert (H : forallb (fun e => negb (str_eqb e ($"rules/" ++ middle e ++ $"/CMakeLists.txt")) || existsb (str_eqb (middle e)) (map fst shipped_tree))
                (map fst rules_lists) = true) by (vm_compute; reflexivity).
  intros c I. rewrite forallb_forall in H. specialize (H _ I). rewrite middle_is, str_eqb_refl in H. cbn [negb orb] in H.
  apply existsb_exists in H as (x & J & E). apply str_eqb_eq in E. subst x. exact J.
Qed.
Definition name_likeb (n : str) : bool := negb (is_nil n) && forallb name_char n.
Lemma name_likeb_is : forall n, name_likeb n = true -> name_like n.
Proof. intros n H. apply andb_true_iff in H as [A B]. split; [intros ->; discriminate|apply checked, B]. Qed.
Definition group_okb (g : group) : bool :=
  name_likeb (fst g) && negb (existsb (str_eqb (fst g)) core) && negb (match snd g with [] => true | _ => false end) && forallb name_likeb (snd g)
  && forallb (fun n => negb (str_eqb n $"CACHE") && negb (str_eqb n $"PARENT_SCOPE")) (snd g).
Lemma group_okb_is : forall g, group_okb g = true -> group_ok g.
Proof.
  intros g H. apply andb_true_iff in H as [H E]. apply andb_true_iff in H as [H D]. apply andb_true_iff in H as [H C]. apply andb_true_iff in H as [A B].
  split; [apply name_likeb_is, A|]. split.
  { intros I. apply Bool.negb_true_iff in B. assert (X : existsb (str_eqb (fst g)) core = true) by (apply existsb_exists; exists (fst g); split; [exact I|apply str_eqb_refl]). congruence. }
  split; [destruct (snd g); discriminate|]. rewrite forallb_forall in D, E. split; apply Forall_forall; intros n I.
  - apply name_likeb_is, D, I.
  - specialize (E n I). apply andb_true_iff in E as [E1 E2]. apply Bool.negb_true_iff in E1, E2. apply str_eqb_neq in E1, E2. auto.
Qed.
Lemma start_tree : forall project f, checkout project f -> tree project shipped_tree f.
Proof.
  intros project f C. split.
  - eexists. split; [apply (listed_text project f $"rules/CMakeLists.txt" C); cbn [map fst rules_lists In]; listed_member|]. exact rules_root_commands.
  - assert (G : forallb (fun d => name_likeb (fst d) && forallb group_okb (snd d)) shipped_tree = true) by (vm_compute; reflexivity).
    assert (L : forallb (fun d => existsb (str_eqb ($"rules/" ++ fst d ++ $"/CMakeLists.txt")) (map fst rules_lists)) shipped_tree = true) by (vm_compute; reflexivity).
    rewrite forallb_forall in G, L. apply Forall_forall. intros [c gs] I. specialize (G _ I). specialize (L _ I). cbn [fst snd] in *. apply andb_true_iff in G as [G1 G2].
    split; [apply name_likeb_is, G1|]. split; [rewrite forallb_forall in G2; apply Forall_forall; intros g J; apply group_okb_is, G2, J|].
    exists (text_of rules_lists ($"rules/" ++ c ++ $"/CMakeLists.txt")). split.
    + apply existsb_exists in L as (x & J & E). apply str_eqb_eq in E. subst x. rewrite <- (listed_text project f _ C J). f_equal.
      unfold list_of_category, rules_dir. rewrite <- !app_assoc. reflexivity.
    + assert (S : forall l, map (fun d : category => commands_in (text_of rules_lists ($"rules/" ++ fst d ++ $"/CMakeLists.txt"))) l
                  = map (fun d => Some (flat_map group_commands (snd d))) l -> In (c, gs) l ->
                  commands_in (text_of rules_lists ($"rules/" ++ c ++ $"/CMakeLists.txt")) = Some (flat_map group_commands gs)).
      { induction l as [|d l IH]; [intros _ []|]. cbn [map]. intros E [->|J]; [injection E as E _; exact E|injection E as _ E; exact (IH E J)]. }
      exact (S _ shipped_commands I).
  - assert (N : NoDup (nodup (list_eq_dec ascii_dec) (map fst shipped_tree))) by apply NoDup_nodup.
    replace (nodup (list_eq_dec ascii_dec) (map fst shipped_tree)) with (map fst shipped_tree) in N by (vm_compute; reflexivity). exact N.
  - intros c P I. destruct (f (list_of_category (rules_dir project) c)) eqn:E; [|reflexivity]. exfalso. apply I, shipped_categories.
    replace ($"rules/" ++ c ++ $"/CMakeLists.txt") with (($"rules/" ++ c) ++ $"/CMakeLists.txt") by (rewrite <- app_assoc; reflexivity).
    apply C. rewrite list_under in E. change ($"/rules/" ++ c) with ($"/" ++ $"rules/" ++ c) in E.
    rewrite <- !app_assoc in E. rewrite <- !app_assoc. rewrite E. discriminate.
  - assert (S : forallb (fun d => forallb (fun n => existsb (str_eqb ($"rules/" ++ fst d ++ $"/" ++ n ++ $"Rule.cpp")) rules_sources) (classes (snd d))) shipped_tree = true)
      by (vm_compute; reflexivity).
    intros c n (gs & I & J). rewrite forallb_forall in S. specialize (S _ I). cbn [fst snd] in S. rewrite forallb_forall in S. specialize (S _ J).
    apply existsb_exists in S as (x & K & E). apply str_eqb_eq in E. subst x. apply C in K. exact K.
Qed.

Lemma add_in : forall c n D d, NoDup (map fst D) -> In d (add c n D) ->
  (In d D /\ fst d <> c) \/ (exists gs, In (c, gs) D /\ d = (c, gs ++ [(build_variable n, [n])]))
  \/ (~ In c (map fst D) /\ d = (c, [(build_variable n, [n])])).
Proof.
  intros c n D d. induction D as [|[x gs] D IH]; cbn [add map fst snd]; intros N I.
  - destruct I as [<-|[]]. right. right. split; [intros []|reflexivity].
  - inversion_clear N as [|? ? Nx Nd]. destruct (str_eqb x c) eqn:E.
    + apply str_eqb_eq in E. subst x. destruct I as [<-|I].
      * right. left. exists gs. split; [left; reflexivity|reflexivity].
      * left. split; [right; exact I|]. intros <-. apply Nx, in_map, I.
    + apply str_eqb_neq in E. destruct I as [<-|I]; [left; split; [left; reflexivity|exact E]|].
      destruct (IH Nd I) as [[J K]|[(hs & J & K)|[J K]]].
      * left. split; [right; exact J|exact K].
      * right. left. exists hs. split; [right; exact J|exact K].
      * right. right. split; [intros [H|H]; [contradiction|apply J, H]|exact K].
Qed.
Lemma ends_apart : forall x y : str, x ++ $"CMakeLists.txt" <> y ++ $"Rule.cpp".
Proof. intros x y E. apply (f_equal (@rev ascii)) in E. rewrite !rev_app_distr in E. discriminate. Qed.
Lemma ends_apart_test : forall x y : str, x ++ $"CMakeLists.txt" <> y ++ $"RuleTest.cpp".
Proof. intros x y E. apply (f_equal (@rev ascii)) in E. rewrite !rev_app_distr in E. discriminate. Qed.

(** What the script did, whatever is in the templates. *)
Definition six (project : str) (a : ruleargs) : list str :=
  [rule_file project a; rule_test_file project a; rule_list project a; rule_test_list project a; all_rules_list project; all_tests_list project].
Record effects (project : str) (a : ruleargs) (g h : files) : Prop := {
  e_file : h (rule_file project a) <> None;
  e_test_file : ra_test a = true -> h (rule_test_file project a) <> None;
  e_list : h (rule_list project a) = Some (text_at g (rule_list project a) ++ rule_step a);
  e_test_list : h (rule_test_list project a) = Some (text_at g (rule_test_list project a) ++ if ra_test a then test_step a else []);
  e_root : h (all_rules_list project) = (match g (rule_list project a) with Some _ => g (all_rules_list project)
                                         | None => Some (text_at g (all_rules_list project) ++ category_step a) end);
  e_test_root : h (all_tests_list project) = (match g (rule_test_list project a) with Some _ => g (all_tests_list project)
                                              | None => Some (text_at g (all_tests_list project) ++ directory_step a) end);
  e_other : forall q, ~ In q (six project a) -> h q = g q;
  e_kept : forall q, g q <> None -> h q <> None
}.
Lemma scaffolded : forall project a g, base project g -> sensible a -> rule_type (ra_rule_type a) ->
  exists h, scaffoldRule project g a = (h, Val tt) /\ effects project a g h.
Proof.
  intros project a g Ba Sa Ty.
  assert (T : forall p, In p (map fst rules_templates) -> exists t, g (project ++ $"/" ++ p) = Some t).
  { intros p I. apply in_map_iff in I as ([p' t'] & <- & I). apply (b_templates _ _ Ba) in I. cbn [fst]. destruct (g _) as [t|]; [eexists; reflexivity|congruence]. }
  assert (Tr : exists t, g (rule_template project a) = Some t).
  { destruct (T ($"template/" ++ ra_rule_type a ++ $"Rule.tmpl")) as (t & E); [|exists t; exact E].
    unfold rule_type in Ty. cbn [In] in Ty. destruct Ty as [<-|[<-|[<-|[<-|[]]]]]; cbn [map fst rules_templates In]; listed_member. }
  destruct Tr as (text & Fr). destruct (T $"template/RuleTest.tmpl") as (tests & Ft); [cbn [map fst rules_templates In]; listed_member|].
  destruct (T $"template/ClangStmtNodes") as (stmts & Fs); [cbn [map fst rules_templates In]; listed_member|].
  destruct (T $"template/ClangDeclNodes") as (decls & Fd); [cbn [map fst rules_templates In]; listed_member|].
  destruct (scaffold_rule_spec project g a text tests stmts decls Sa Ty Fr Ft Fs Fd) as (h & R & E1 & E2 & E3 & E4 & E5 & E6 & E7).
  exists h. split; [exact R|]. split; auto.
  - rewrite E1. discriminate.
  - intros H. rewrite H in E2. rewrite E2. discriminate.
  - intros q Q. destruct (in_dec (list_eq_dec ascii_dec) q (six project a)) as [I|I]; [|rewrite E7 by exact I; exact Q].
    cbn [six In] in I. destruct I as [<-|[<-|[<-|[<-|[<-|[<-|[]]]]]]].
    + rewrite E1. discriminate.
    + rewrite E2. destruct (ra_test a); [discriminate|exact Q].
    + rewrite E3. discriminate.
    + rewrite E4. discriminate.
    + rewrite E5. destruct (g (rule_list project a)); [exact Q|discriminate].
    + rewrite E6. destruct (g (rule_test_list project a)); [exact Q|discriminate].
Qed.
Lemma rule_list_is : forall project a, rule_list project a = list_of_category (rules_dir project) (ra_category a).
Proof. intros project a. unfold rule_list, list_of_category, rules_dir. rewrite <- !app_assoc. reflexivity. Qed.
Lemma not_six : forall project a r, (forall x, r <> $"/rules/" ++ x) -> (forall x, r <> $"/test/" ++ x) -> ~ In (project ++ r) (six project a).
Proof.
  intros project a r A B I. cbn [six In] in I.
  destruct I as [E|[E|[E|[E|[E|[E|[]]]]]]]; apply app_inv_head in E; symmetry in E; first [exact (A _ E)|exact (B _ E)].
Qed.
Lemma other_list : forall project a c, c <> ra_category a -> ~ In (list_of_category (rules_dir project) c) (six project a).
Proof.
  intros project a c N I. cbn [six In] in I. rewrite list_under in I.
  assert (X : project ++ ($"/rules/" ++ c) ++ $"/CMakeLists.txt" = (project ++ $"/rules/" ++ c ++ $"/") ++ $"CMakeLists.txt") by (rewrite <- !app_assoc; reflexivity).
  destruct I as [E|[E|[E|[E|[E|[E|[]]]]]]].
  - rewrite X in E. unfold rule_file in E. rewrite !app_assoc in E. symmetry in E. revert E. rewrite <- (app_assoc _ c). apply ends_apart.
  - apply app_inv_head in E. discriminate.
  - apply app_inv_head in E. rewrite <- app_assoc in E. apply app_inv_head, app_inv_tail in E. congruence.
  - apply app_inv_head in E. discriminate.
  - apply app_inv_head in E. rewrite <- app_assoc in E. apply (app_inv_head $"/rules/") in E.
    apply (f_equal (@length ascii)) in E. rewrite app_length in E. cbn in E. lia.
  - apply app_inv_head in E. discriminate.
Qed.
Lemma base_step : forall project a g h, base project g -> effects project a g h -> base project h.
Proof.
  intros project a g h Ba E. split.
  - intros p I. rewrite (e_other _ _ _ _ E); [apply Ba, I|]. apply not_six; intros x H; cbn [In] in I; destruct I as [<-|[<-|[<-|[<-|[]]]]]; discriminate.
  - intros p I. apply (e_kept _ _ _ _ E), Ba, I.
  - intros p t I. apply (e_kept _ _ _ _ E). exact (b_templates _ _ Ba p t I).
Qed.
Lemma class_letters : forall a, sensible a -> letters (ra_class_name a).
Proof.
  intros a ((x & r & E & U & R) & _). rewrite E. split; [discriminate|]. constructor; [unfold isalpha; rewrite U; reflexivity|exact R].
Qed.
Lemma tree_step : forall project D a g h, tree project D g -> buildable a -> effects project a g h ->
  tree project (add (ra_category a) (ra_class_name a) D) h.
Proof.
  intros project D a g h T (Sa & Ty & Pc & Nk & _) E. set (c := ra_category a) in *. set (n := ra_class_name a) in *.
  pose proof (class_letters a Sa) as Ln. fold n in Ln. pose proof (plain_name c Pc) as Lc.
  assert (Go : group_ok (build_variable n, [n])).
  { assert (Nb : name_like (build_variable n)).
    { split; [discriminate|]. pose proof (proj2 (letters_name n Ln)) as N. unfold build_variable. words. }
    split; [exact Nb|]. split; [cbn; intros [X|[X|[X|[]]]]; discriminate|]. split; [discriminate|]. split; [repeat constructor; apply (letters_name n Ln)|].
    repeat constructor; [exact Nk|]. cbn [snd]. intros X. destruct Ln as [_ Ln]. rewrite X in Ln. do 6 (inversion_clear Ln as [|? ? _ Ln']; rename Ln' into Ln). inversion_clear Ln as [|? ? Y _]. discriminate. }
  assert (St : commands_in (rule_step a) = Some (group_commands (build_variable n, [n]))).
  { change (rule_step a) with ([] ++ NL :: ($"SET(Build" ++ n ++ $"Rule " ++ n ++ $")" ++ [NL]
       ++ $"BUILD_DYNAMIC_RULES(" ++ [""""]%char ++ $"${Build" ++ n ++ $"Rule}" ++ [""""]%char ++ $")" ++ [NL])).
    apply (commands_more [] []); [reflexivity|apply rule_step_commands, Ln]. }
  assert (Dec : In c (map fst D) \/ ~ In c (map fst D)) by (destruct (in_dec (list_eq_dec ascii_dec) c (map fst D)); auto).
  assert (Lk : forall gs, In (c, gs) D -> exists text, g (rule_list project a) = Some text /\ commands_in text = Some (flat_map group_commands gs) /\ Forall group_ok gs).
  { intros gs I. pose proof (r_lists _ _ _ T) as L. rewrite Forall_forall in L. destruct (L _ I) as (_ & G & text & A & C). exists text. rewrite rule_list_is. auto. }
  split.
  - destruct (r_root _ _ _ T) as (text & Rt & Rc). change (project ++ $"/rules/CMakeLists.txt") with (all_rules_list project) in *. destruct Dec as [I|I].
    + exists text. split; [|rewrite (proj1 (add_names c n D) I); exact Rc]. rewrite (e_root _ _ _ _ E).
      apply in_map_iff in I as ([c' gs] & Ec & I). cbn [fst] in Ec. subst c'. destruct (Lk gs I) as (t' & -> & _). exact Rt.
    + exists (text ++ category_step a). split.
      * rewrite (e_root _ _ _ _ E). rewrite rule_list_is. fold c. rewrite (r_none _ _ _ T c Pc I). unfold text_at. rewrite Rt. reflexivity.
      * rewrite (proj2 (add_names c n D) I), map_app, app_assoc. change (category_step a) with (NL :: $"ADD_RULE_CATEGORY_DIRECTORY(" ++ c ++ $")" ++ [NL]).
        apply commands_more; [exact Rc|].
        change ($"ADD_RULE_CATEGORY_DIRECTORY(" ++ c ++ $")" ++ [NL]) with ($"ADD_RULE_CATEGORY_DIRECTORY" ++ $"(" ++ c ++ $")" ++ [NL]).
        change (map category_call [c]) with [call (map tolower $"ADD_RULE_CATEGORY_DIRECTORY") [c]]. apply one_argument; [exact Lc| |discriminate].
        apply Forall_forall. intros x X. assert (Q : forallb (fun x => is_word x && negb (isdigit x)) $"ADD_RULE_CATEGORY_DIRECTORY" = true) by reflexivity.
        rewrite forallb_forall in Q. specialize (Q x X). apply andb_true_iff in Q as [Q1 Q2]. apply Bool.negb_true_iff in Q2. auto.
  - apply Forall_forall. intros d Id. apply (add_in c n D d (r_names _ _ _ T)) in Id as [[I N]|[(gs & I & ->)|[I ->]]].
    + pose proof (r_lists _ _ _ T) as L. rewrite Forall_forall in L. destruct (L _ I) as (A & G & text & Te & C). split; [exact A|]. split; [exact G|].
      exists text. split; [|exact C]. rewrite (e_other _ _ _ _ E); [exact Te|]. apply other_list, N.
    + destruct (Lk gs I) as (text & Te & C & G). split; [exact Lc|]. split; [apply Forall_app; split; [exact G|constructor; [exact Go|constructor]]|]. exists (text ++ rule_step a). cbn [fst snd]. split.
      * replace (list_of_category (rules_dir project) c) with (rule_list project a) by apply rule_list_is. rewrite (e_list _ _ _ _ E). unfold text_at. rewrite Te. reflexivity.
      * rewrite flat_map_app. cbn [flat_map]. rewrite app_nil_r. change (rule_step a) with (NL :: skipn 1 (rule_step a)). apply commands_more; [exact C|].
        cbn [rule_step app skipn]. exact (rule_step_commands n Ln).
    + split; [exact Lc|]. split; [constructor; [exact Go|constructor]|]. exists (rule_step a). cbn [fst snd]. split.
      * replace (list_of_category (rules_dir project) c) with (rule_list project a) by apply rule_list_is. rewrite (e_list _ _ _ _ E). unfold text_at. rewrite rule_list_is. fold c. rewrite (r_none _ _ _ T c Pc I). reflexivity.
      * cbn [flat_map]. rewrite app_nil_r. exact St.
  - destruct Dec as [I|I]; [rewrite (proj1 (add_names c n D) I); apply T|]. rewrite (proj2 (add_names c n D) I).
    pose proof (NoDup_rev (r_names _ _ _ T)) as N. rewrite <- (rev_involutive (map fst D ++ [c])). apply NoDup_rev. rewrite rev_app_distr. cbn [rev app].
    constructor; [rewrite <- in_rev; exact I|exact N].
  - intros x Px I. assert (X : x <> c /\ ~ In x (map fst D)).
    { destruct Dec as [J|J]; [rewrite (proj1 (add_names c n D) J) in I|rewrite (proj2 (add_names c n D) J), in_app_iff in I].
      - split; [congruence|exact I].
      - split; [intros ->; apply I; right; left; reflexivity|tauto]. }
    rewrite (e_other _ _ _ _ E) by (apply other_list, X). apply T; [exact Px|apply X].
  - intros x m H. apply add_has in H as [H|[-> ->]]; [apply (e_kept _ _ _ _ E), T, H|exact (e_file _ _ _ _ E)].
Qed.

Lemma edited_step : forall project D g h, base project g -> tree project D g -> edited project g h -> base project h /\ tree project D h.
Proof.
  intros project D g h Ba T (L & K). split; split.
  - intros p I. rewrite <- (b_upper _ _ Ba p I). cbn [In] in I.
    destruct I as [<-|[<-|[<-|[<-|[]]]]]; [exact (L [])|exact (L $"/lib")|exact (L $"/lib/helper")|exact (L $"/lib/util")].
  - intros p I. apply K, Ba, I.
  - intros p t I. apply K. exact (b_templates _ _ Ba p t I).
  - destruct (r_root _ _ _ T) as (text & A & C). exists text. split; [|exact C]. rewrite <- A. exact (L $"/rules").
  - eapply Forall_impl; [|exact (r_lists _ _ _ T)]. intros d (A & G & text & Te & C). split; [exact A|]. split; [exact G|]. exists text. split; [|exact C].
    rewrite list_under in *. rewrite L. exact Te.
  - apply T.
  - intros c P I. rewrite list_under, L, <- list_under. apply T; assumption.
  - intros c n H. apply K, T, H.
Qed.
Definition grown (l : list ruleargs) : list category := fold_left (fun D a => add (ra_category a) (ra_class_name a) D) l shipped_tree.
Lemma history_tree : forall project f l g, checkout project f -> history project f l g -> Forall buildable l ->
  base project g /\ tree project (grown l) g.
Proof.
  intros project f l g C H. induction H as [|l f' g H IH E|l a f' g H IH R]; intros O.
  - split; [apply start_base, C|apply start_tree, C].
  - destruct (IH O) as [Ba T]. apply (edited_step project _ f' g Ba T E).
  - apply Forall_app in O as [O Oa]. inversion_clear Oa as [|? ? Ba' _]. destruct (IH O) as [Ba T].
    destruct (scaffolded project a f' Ba (proj1 Ba') (proj1 (proj2 Ba'))) as (h & R' & E). rewrite R in R'. injection R' as <-.
    split; [exact (base_step _ _ _ _ Ba E)|]. unfold grown. rewrite fold_left_app. cbn [fold_left]. apply (tree_step _ _ _ _ _ T Ba' E).
Qed.
Lemma grown_has : forall l c n, has (grown l) c n <->
  (exists r, In r shipped_rules /\ sh_built r = true /\ sh_directory r = c /\ sh_file r = n ++ $"Rule.cpp") \/ exists a, In a l /\ ra_category a = c /\ ra_class_name a = n.
Proof.
  intros l c n. rewrite <- shipped_built. change (exists gs, In (c, gs) shipped_tree /\ In n (classes gs)) with (has shipped_tree c n). unfold grown.
  generalize shipped_tree as D. induction l as [|a l IH]; intros D; cbn [fold_left].
  - split; [auto|]. intros [H|(a & [] & _)]. exact H.
  - rewrite IH, add_has. split.
    + intros [[H|[-> ->]]|(b & I & E)]; [left; exact H|right; exists a; split; [left; reflexivity|auto]|right; exists b; split; [right; exact I|exact E]].
    + intros [H|(b & [<-|I] & E1 & E2)]; [left; left; exact H|left; right; auto|right; exists b; auto].
Qed.
Lemma grown_classes : forall l, Permutation (tree_classes (grown l)) (map ra_class_name l ++ tree_classes shipped_tree).
Proof.
  intros l. unfold grown. generalize shipped_tree as D. induction l as [|a l IH]; intros D; cbn [fold_left map app]; [apply Permutation_refl|].
  eapply Permutation_trans; [apply IH|]. eapply Permutation_trans; [apply Permutation_app_head, add_classes|]. apply Permutation_sym, Permutation_middle.
Qed.
Lemma tree_members : forall B dir D ts, tree_libraries B dir D ts ->
  (forall c n, has D c n -> exists t extra, In t ts /\ t = library B (dir ++ $"/" ++ c) n extra)
  /\ (forall t, In t ts -> exists c n extra, has D c n /\ t = library B (dir ++ $"/" ++ c) n extra).
Proof.
  intros B dir D ts (l & -> & F). split.
  - intros c n (gs & I & J). induction F as [|[c' gs'] ts D l L F IH]; [destruct I|]. cbn [concat]. destruct I as [E|I].
    + injection E as -> ->. cbn [fst snd] in L. clear IH F. induction L as [|m t ns ts (e & ->) L IH]; [destruct J|]. destruct J as [->|J].
      * exists (library B (dir ++ $"/" ++ c) n e), e. split; [left; reflexivity|reflexivity].
      * destruct (IH J) as (t & e' & T & E). exists t, e'. split; [right; exact T|exact E].
    + destruct (IH I) as (t & e & T & E). exists t, e. split; [apply in_or_app; right; exact T|exact E].
  - intros t I. induction F as [|[c gs] ts D l L F IH]; [destruct I|]. cbn [concat] in I. apply in_app_iff in I as [I|I].
    + cbn [fst snd] in L. assert (X : exists n e, In n (classes gs) /\ t = library B (dir ++ $"/" ++ c) n e).
      { clear IH F. induction L as [|m t' ns ts (e & ->) L IH]; [destruct I|]. destruct I as [<-|I]; [exists m, e; split; [left; reflexivity|reflexivity]|].
        destruct (IH I) as (n & e' & J & E). exists n, e'. split; [right; exact J|exact E]. }
      destruct X as (n & e & J & E). exists c, n, e. split; [exists gs; split; [left; reflexivity|exact J]|exact E].
    + destruct (IH I) as (c' & n & e & (gs' & J & K) & E). exists c', n, e. split; [exists gs'; split; [right; exact J|exact K]|exact E].
Qed.
Lemma tree_names : forall B dir D ts, tree_libraries B dir D ts -> map t_name ts = map (fun n => n ++ $"Rule") (tree_classes D).
Proof.
  intros B dir D ts (l & -> & F). induction F as [|d ts D l L F IH]; [reflexivity|]. cbn [concat]. rewrite map_app, IH, (libraries_names _ _ _ _ L).
  change (tree_classes (d :: D)) with (classes (snd d) ++ tree_classes D). rewrite map_app. reflexivity.
Qed.
Lemma library_source : forall project c n, name_like n ->
  join (rules_dir project ++ $"/" ++ c) (n ++ $"Rule.cpp") = project ++ $"/rules/" ++ c ++ $"/" ++ n ++ $"Rule.cpp".
Proof.
  intros project c n [N F]. rewrite join_name.
  - unfold rules_dir. rewrite <- !app_assoc. reflexivity.
  - split; [apply app_not_nil; left; exact N|]. words.
Qed.
Lemma library_meets : forall project binary c n extra, name_like n ->
  library_of_rule project binary c n (library binary (rules_dir project ++ $"/" ++ c) n extra).
Proof.
  intros project binary c n extra N. split; cbn [library t_name t_kind t_sources t_properties t_links].
  - reflexivity.
  - reflexivity.
  - rewrite library_source by exact N. reflexivity.
  - intros k d K. cbn [In]. split; [intros [E|[E|[]]]; injection E as _ E; symmetry; exact E|].
    intros ->. cbn [In] in K. destruct K as [<-|[<-|[]]]; auto.
  - intros x I. apply in_or_app. left. cbn [In rule_links] in *. tauto.
Qed.
Lemma tree_name_like : forall project D g c n, tree project D g -> has D c n -> name_like n.
Proof.
  intros project D g c n T (gs & I & J). pose proof (r_lists _ _ _ T) as L. rewrite Forall_forall in L. destruct (L _ I) as (_ & G & _). cbn [snd] in G.
  apply in_flat_map in J as (gr & K & J). rewrite Forall_forall in G. destruct (G _ K) as (_ & _ & _ & N & _). rewrite Forall_forall in N. apply N, J.
Qed.
Lemma configure_done : forall F binary config project given text l s,
  F (project ++ $"/CMakeLists.txt") = Some text -> commands_in text = Some l ->
  steps F binary config project l (initial project given) s -> (forall t x, In t (s_targets s) -> In x (t_sources t) -> F x <> None) ->
  configures F binary config project given s.
Proof.
  intros F binary config project given text l s T C R S. destruct (steps_at _ _ _ _ _ _ _ R) as (n & Rn). exists n. intros fuel L. unfold configure.
  change (join project $"CMakeLists.txt") with (project ++ $"/CMakeLists.txt"). rewrite T, C. fold (initial project given). rewrite (Rn fuel L).
  replace (forallb _ (s_targets s)) with true; [reflexivity|]. symmetry. apply forallb_forall. intros t It. apply forallb_forall. intros x Ix.
  unfold isfile. specialize (S t x It Ix). destruct (F x); [reflexivity|congruence].
Qed.
Lemma off_false : forall given k, off given k -> false_constant (match given k with Some x => x | None => [] end) = true.
Proof. intros given k [->|(v & -> & I)]; [reflexivity|]. cbn [In] in I. destruct I as [<-|[<-|[<-|[<-|[<-|[]]]]]]; reflexivity. Qed.
(** What OCLintConfig leaves as it was. *)
Lemma machine_config : forall module project binary e given, machine module project binary e given ->
  exists v, oclint_config e (at_include module project binary given) = Some v
    /\ v current = Some project /\ v $"PROJECT_BINARY_DIR" = Some binary
    /\ forall k, In k [$"CMAKE_SYSTEM_NAME"; $"TEST_BUILD"; $"PROFILE_RT_LIBS"] -> v k = at_include module project binary given k.
Proof.
  intros module project binary e given M. destruct (oclint_config e _) as [v|] eqn:Cv; [|exfalso; exact (m_found _ _ _ _ _ M Cv)]. exists v. split; [reflexivity|].
  assert (K : forall k, In k [$"PROJECT_BINARY_DIR"; $"CMAKE_SYSTEM_NAME"; $"CMAKE_CURRENT_SOURCE_DIR"; $"TEST_BUILD"; $"PROFILE_RT_LIBS"] -> v k = at_include module project binary given k).
  { intros k I. apply (config_kept e _ v Cv); [intros a b; apply (m_llvm _ _ _ _ _ M); cbn [In] in *; tauto|].
    assert (S : forallb (fun k => sparing k config_commands) [$"PROJECT_BINARY_DIR"; $"CMAKE_SYSTEM_NAME"; $"CMAKE_CURRENT_SOURCE_DIR"; $"TEST_BUILD"; $"PROFILE_RT_LIBS"] = true)
      by (vm_compute; reflexivity). rewrite forallb_forall in S. exact (S k I). }
  split; [|split].
  - change current with $"CMAKE_CURRENT_SOURCE_DIR". rewrite (K $"CMAKE_CURRENT_SOURCE_DIR") by (cbn; auto). unfold at_include.
    rewrite !assign_other by discriminate. unfold assign at 1. destruct (str_eqb _ _); reflexivity.
  - rewrite (K $"PROJECT_BINARY_DIR") by (cbn; auto). unfold at_include. rewrite assign_other by discriminate. apply assign_same.
  - intros k I. apply K. cbn [In] in *. tauto.
Qed.

Lemma static_sources : forall project g t x, base project g -> In t (statics project) -> In x (t_sources t) -> g x <> None.
Proof.
  intros project g t x Ba It Ix.
  assert (K : exists p, In p rules_sources /\ x = project ++ $"/" ++ p).
  { assert (J : forall d n, join (project ++ d) n = match n with c :: _ => if ascii_eqb c "/"%char then n else project ++ d ++ $"/" ++ n | [] => project ++ d ++ $"/" end).
    { intros d [|c n]; cbn [join]; [rewrite <- app_assoc; reflexivity|]. destruct (ascii_eqb c "/"); [reflexivity|]. rewrite <- app_assoc. reflexivity. }
    cbn [statics In] in It. destruct It as [<-|[<-|[<-|[]]]]; cbn [static_library t_sources map In] in Ix; rewrite !J in Ix; cbn [In] in Ix;
    repeat destruct Ix as [Ix|Ix]; try contradiction; subst x.
    - exists $"lib/helper/AttributeHelper.cpp". split; [cbn [rules_sources In]; listed_member|reflexivity].
    - exists $"lib/helper/EnforceHelper.cpp". split; [cbn [rules_sources In]; listed_member|reflexivity].
    - exists $"lib/helper/SuppressHelper.cpp". split; [cbn [rules_sources In]; listed_member|reflexivity].
    - exists $"lib/util/ASTUtil.cpp". split; [cbn [rules_sources In]; listed_member|reflexivity].
    - exists $"lib/util/StdUtil.cpp". split; [cbn [rules_sources In]; listed_member|reflexivity].
    - exists $"lib/AbstractASTMatcherRule.cpp". split; [cbn [rules_sources In]; listed_member|reflexivity].
    - exists $"lib/AbstractASTRuleBase.cpp". split; [cbn [rules_sources In]; listed_member|reflexivity].
    - exists $"lib/AbstractSourceCodeReaderRule.cpp". split; [cbn [rules_sources In]; listed_member|reflexivity]. }
  destruct K as (p & I & ->). apply Ba, I.
Qed.
Lemma shipped_distinct : NoDup (static_names ++ map (fun n => n ++ $"Rule") (tree_classes shipped_tree)).
Proof.
  pose proof (NoDup_nodup (list_eq_dec ascii_dec) (static_names ++ map (fun n => n ++ $"Rule") (tree_classes shipped_tree))) as N.
  replace (nodup _ _) with (static_names ++ map (fun n => n ++ $"Rule") (tree_classes shipped_tree)) in N by (vm_compute; reflexivity). exact N.
Qed.

(** ** C146 *)

Lemma grown_distinct : forall l, Forall buildable l -> new_rules l -> NoDup (static_names ++ map (fun n => n ++ $"Rule") (tree_classes (grown l))).
Proof.
  intros l O [Nd Nn]. set (h := fun n : str => n ++ $"Rule").
  assert (P : Permutation (static_names ++ map h (tree_classes (grown l))) (map h (map ra_class_name l) ++ (static_names ++ map h (tree_classes shipped_tree)))).
  { eapply Permutation_trans; [apply Permutation_app_head, Permutation_map, grown_classes|]. rewrite map_app.
    rewrite !app_assoc. apply Permutation_app_tail, Permutation_app_comm. }
  eapply Permutation_NoDup; [apply Permutation_sym, P|].
  assert (Sep : forall x, In x (map ra_class_name l) -> ~ In (h x) (static_names ++ map h (tree_classes shipped_tree))).
  { intros x I J. apply in_map_iff in I as (a & <- & I). rewrite Forall_forall in O. destruct (O a I) as (Sa & _ & _ & _ & Na).
    apply in_app_iff in J as [J|J].
    - cbn [static_names In] in J. destruct J as [E|[E|[E|[]]]].
      + apply (f_equal (@rev ascii)) in E. unfold h in E. rewrite rev_app_distr in E. discriminate.
      + apply (f_equal (@rev ascii)) in E. unfold h in E. rewrite rev_app_distr in E. discriminate.
      + apply Na. apply (app_inv_tail $"Rule"). symmetry. exact E.
    - apply in_map_iff in J as (m & E & J). unfold h in E. apply app_inv_tail in E. subst m. apply in_flat_map in J as ([c gs] & J & K). cbn [snd] in K.
      destruct (proj1 (shipped_built c (ra_class_name a))) as (r & R & Bu & _ & Fi); [exists gs; auto|]. exact (Nn a r I R Bu Fi). }
  assert (Nh : NoDup (map h (map ra_class_name l))) by (apply nodup_map; [intros a b E; exact (app_inv_tail _ _ _ E)|exact Nd]).
  assert (Ns : NoDup (static_names ++ map h (tree_classes shipped_tree))) by exact shipped_distinct. revert Sep Nh Ns. generalize (map ra_class_name l) as xs. generalize (static_names ++ map h (tree_classes shipped_tree)) as r.
  intros r xs Sep Nh Ns. induction xs as [|x xs IH]; [exact Ns|]. cbn [map app] in *. inversion_clear Nh as [|? ? Nx Nh'].
  constructor; [intros I; apply in_app_iff in I as [I|I]; [contradiction|exact (Sep x (or_introl eq_refl) I)]|]. apply IH; [|exact Nh']. intros y Y. apply Sep. right. exact Y.
Qed.

(** After any history of scaffolding and editing, CMake accepts the project; every rule asked for
    and every rule shipped gets its library; besides, only the static libraries they use are built. *)
Theorem c146_rules : forall project binary e given f l g,
  machine $"OCLINT_RULES" project binary e given -> off given $"TEST_BUILD" ->
  checkout project f -> history project f l g -> Forall buildable l -> new_rules l ->
  exists s, configures g binary (oclint_config e) project given s
    /\ NoDup (map t_name (s_targets s))
    /\ (forall a, In a l -> exists t, In t (s_targets s) /\ library_of_rule project binary (ra_category a) (ra_class_name a) t)
    /\ (forall r, In r shipped_rules -> sh_built r = true ->
         exists t class, In t (s_targets s) /\ sh_file r = class ++ $"Rule.cpp" /\ library_of_rule project binary (sh_directory r) class t)
    /\ (forall t, In t (s_targets s) -> t_kind t <> Static ->
         (exists a, In a l /\ library_of_rule project binary (ra_category a) (ra_class_name a) t)
         \/ exists r class, In r shipped_rules /\ sh_built r = true /\ sh_file r = class ++ $"Rule.cpp" /\ library_of_rule project binary (sh_directory r) class t)
    /\ s_tests s = [].
Proof.
  intros project binary e given f l g M Tb C H O Nw. destruct (history_tree _ _ _ _ C H O) as [Ba T].
  destruct (machine_config _ _ _ _ _ M) as (v & Cv & Cu & Pb & Kv). destruct M as [Mp Mb _ _ (y & Gy & Xy & Ny) Mm].
  assert (Gv : v $"CMAKE_SYSTEM_NAME" = Some y) by (rewrite Kv by (cbn; auto); exact Gy). destruct (r_root _ _ _ T) as (text & Rt & Rc).
  pose proof (grown_distinct l O Nw) as Gd.
  assert (Tv : false_constant (match v $"TEST_BUILD" with Some x => x | None => [] end) = true) by (rewrite Kv by (cbn; auto); exact (off_false _ _ Tb)).
  destruct (rules_configured g binary (oclint_config e) project (fun p I => b_upper _ _ Ba p (or_intror I)) given v Cv Mm Mp Mb y Pb Gv Ny Xy (grown l) text
              Tv Rt Rc (r_lists _ _ _ T) (r_names _ _ _ T) Gd) as (ts & s & R & Ts & L & Te).
  destruct (tree_members _ _ _ _ L) as [In1 In2].
  assert (Lib : forall c n, has (grown l) c n -> exists t, In t (s_targets s) /\ library_of_rule project binary c n t).
  { intros c n Hn. destruct (In1 c n Hn) as (t & z & I & ->). eexists. split; [rewrite Ts; apply in_or_app; right; exact I|].
    apply library_meets. exact (tree_name_like _ _ _ _ _ T Hn). }
  exists s. split; [|split; [|split; [|split; [|split]]]].
  - apply (configure_done _ _ _ _ _ _ root_commands s (b_upper _ _ Ba $"CMakeLists.txt" (or_introl eq_refl)) (proj1 upper_lists) R).
    intros t x It Ix. rewrite Ts in It. apply in_app_iff in It as [It|It]; [exact (static_sources _ _ _ _ Ba It Ix)|].
    destruct (In2 t It) as (c & n & z & Hn & ->). cbn [library t_sources In] in Ix. destruct Ix as [<-|[]].
    fold (rules_dir project). rewrite library_source by exact (tree_name_like _ _ _ _ _ T Hn). apply T, Hn.
  - rewrite Ts, map_app, (tree_names _ _ _ _ L). exact Gd.
  - intros a I. apply Lib, grown_has. right. exists a. auto.
  - intros r I Bu. destruct (proj2 (shipped_built (sh_directory r) (firstn (length (sh_file r) - 8) (sh_file r)))) as (gs & J & K).
    + exists r. split; [exact I|]. split; [exact Bu|]. split; [reflexivity|].
      assert (Z : forallb (fun r => str_eqb (sh_file r) (firstn (length (sh_file r) - 8) (sh_file r) ++ $"Rule.cpp")) shipped_rules = true) by (vm_compute; reflexivity).
      rewrite forallb_forall in Z. apply str_eqb_eq, Z, I.
    + destruct (Lib (sh_directory r) (firstn (length (sh_file r) - 8) (sh_file r))) as (t & It & Lt).
      { apply grown_has. left. apply shipped_built. exists gs. auto. }
      exists t, (firstn (length (sh_file r) - 8) (sh_file r)). split; [exact It|]. split; [|exact Lt].
      assert (Z : forallb (fun r => str_eqb (sh_file r) (firstn (length (sh_file r) - 8) (sh_file r) ++ $"Rule.cpp")) shipped_rules = true) by (vm_compute; reflexivity).
      rewrite forallb_forall in Z. apply str_eqb_eq, Z, I.
  - intros t It K. rewrite Ts in It. apply in_app_iff in It as [It|It].
    { exfalso. cbn [statics In] in It. destruct It as [<-|[<-|[<-|[]]]]; apply K; reflexivity. }
    destruct (In2 t It) as (c & n & z & Hn & ->). pose proof (library_meets project binary c n z (tree_name_like _ _ _ _ _ T Hn)) as Lm. fold (rules_dir project).
    apply grown_has in Hn as [(r & Ir & Bu & <- & Fi)|(a & Ia & <- & <-)]; [right; exists r, n; auto|left; exists a; auto].
  - exact Te.
Qed.
Print Assumptions c146_rules.
