(** * C150: the rules that were built are the rules that run *)
From Verif Require Import Base BaseFacts ModelScaffold SpecScaffold ModelCMake ModelCMakeTexts ModelCMakeConfig SpecCMake SpecCMakeConfig SpecCMakeReporters SpecCMakeModules ModelRuleTable SpecRelease.
From Verif Require Import ModelOptions ModelMain ModelInstall SpecMain SpecInstall PropInstall ModelBundle SpecBundle PropBundle PropRelease.

(** Wherever the release is moved to: whoever starts a program of its bin directory and names no
    rule path has the rules of all libraries of the rules shipped or scaffolded, and no others. *)
Theorem c150_rules_run : forall image suffix env args fs0 cwd0 D l,
  ready env args fs0 (touched env args D) D -> unlinked fs0 (names (e_root env)) -> (ba_archive args = true -> plain_system env) ->
  rules_built image suffix (e_root env) fs0 l ->
  fst (bundle env args (start fs0 cwd0)) = Val tt ->
  forall fs P, sane fs -> (forall r, fs (P ++ r) = m_fs (snd (bundle env args (start fs0 cwd0))) (D ++ release_name env args :: r)) ->
  forall cwd pwd wd can PATH home a f dir lib w s rules,
  current fs cwd pwd -> (forall p, can p = true <-> runnable fs cwd p) -> ~ In [] PATH ->
  executed fs cwd PATH a f -> lies_in f dir -> opens fs cwd dir (P ++ [$"bin"]) -> is_directory fs (P ++ [$"bin"]) ->
  w_env w = started can PATH pwd wd home a -> lists_directories fs cwd w -> opens_libraries fs cwd lib w ->
  options_are w s -> argRulesPath s = [] -> rules_loaded w s rules ->
  let library := library_of_rule (module_at (e_root env) $"rules") (built_at (e_root env) $"rules") in
  (forall category class, due_rule l category class -> exists t rs, library category class t /\ lib (image t) = Some rs /\ incl rs rules)
  /\ forall j, In j rules -> exists category class t rs, due_rule l category class /\ library category class t /\ lib (image t) = Some rs /\ In j rs.
Proof.
  intros image suffix env args fs0 cwd0 D l Rd Un Sys B Ok fs P Sn Mv cwd pwd wd can PATH home a f dir lib w s rules C Can Ne Ex Li Op Db En Ld Ol Os Rp Rl library.
  pose proof (release_is env args fs0 cwd0 D Rd Sys Ok) as Is.
  assert (Bl : forall r e, fs (P ++ r) = Some e <-> belongs fs0 (kind_of env args) r e) by (intros r e; rewrite Mv; apply Is).
  assert (Cl : PropBundle.closed fs0) by (destruct Rd as (_ & _ & _ & Cl & _); exact Cl).
  destruct (c137_built_is_what_runs fs0 (kind_of env args) Cl fs P Sn Bl cwd pwd wd can PATH home a f dir lib w s rules C Can Ne Ex Li Op Db En Ld Ol Os Rp Rl) as (All & Rules).
  destruct (c150_rules image suffix env args fs0 cwd0 D l Rd Un Sys B Ok) as (Due & Only). cbv zeta in Due, Only. split.
  - intros category class H. destruct (Due category class H) as (t & L & R). apply Is, belongs_rules in R.
    assert (V : visible ($"lib" ++ class ++ $"Rule" ++ suffix)) by (intros r E; discriminate E).
    destruct (All _ _ V R) as (x & c & rs & E & Lc). assert (Ec : image t = c) by congruence. rewrite <- Ec in Lc. exists t, rs. split; [exact L|]. split; [exact Lc|].
    intros j I. apply Rules. exists ($"lib" ++ class ++ $"Rule" ++ suffix), true, (image t), rs. auto.
  - intros j I. apply Rules in I as (n & x & c & rs & _ & Sh & Lc & I). apply b_rules, Is in Sh. destruct (Only n [] (Regular x c) Sh) as (category & class & t & H & _ & _ & L & E).
    assert (Ec : image t = c) by congruence. rewrite <- Ec in Lc. exists category, class, t, rs. auto.
Qed.
Print Assumptions c150_rules_run.

(** ** The release of [c150_case], in /opt/oclint by now *)
Definition released_args : bundleargs := {| ba_archive := false; ba_docgen := false; ba_release := true; ba_llvm_root := $"/llvm" |}.
Definition under_ (src dst : list str) : table :=
  flat_map (fun x => match strip src (fst x) with Some r => [(dst ++ r, snd x)] | None => [] end) release_files.
Definition moved_files : table :=
  ([$"opt"], Directory) :: ([$"w"], Directory) :: map (fun x => ([$"opt"; $"oclint"] ++ fst x, snd x))
    ([([], Directory); ([$"LICENSE"], Regular false $"BSD"); ([$"bin"; $"oclint"], Symlink $"oclint-26.02"); ([$"lib"], Directory); ([$"lib"; $"oclint"], Directory)]
     ++ under_ [$"oclint"; $"build"; $"oclint-driver"; $"bin"] [$"bin"] ++ under_ [$"oclint"; $"build"; $"oclint-rules"; $"rules.dl"] [$"lib"; $"oclint"; $"rules"]
     ++ under_ [$"oclint"; $"build"; $"oclint-reporters"; $"reporters.dl"] [$"lib"; $"oclint"; $"reporters"] ++ under_ [$"llvm"; $"lib"; $"clang"] [$"lib"; $"clang"]).
Definition entry_eqb (a b : entry) : bool :=
  match a, b with
  | Directory, Directory => true
  | Regular x c, Regular y d => Bool.eqb x y && str_eqb c d
  | Symlink c, Symlink d => str_eqb c d
  | _, _ => false
  end.
Lemma entry_eqb_eq : forall a b, entry_eqb a b = true -> a = b.
Proof.
  intros [|x c|c] [|y d|d]; cbn [entry_eqb]; try discriminate; [reflexivity| |intros E; apply str_eqb_eq in E; congruence].
  intros E. apply andb_true_iff in E as [E1 E2]. apply Bool.eqb_prop in E1. apply str_eqb_eq in E2. congruence.
Qed.
Definition is_entry (o : option entry) (e : entry) : bool := match o with Some x => entry_eqb x e | None => false end.
Lemma is_entry_eq : forall o e, is_entry o e = true -> o = Some e.
Proof. intros [x|] e H; [|discriminate]. apply entry_eqb_eq in H. congruence. Qed.

Lemma released_ready : ready release_env released_args (fs_of release_files) (touched release_env released_args [$"oclint"; $"build"]) [$"oclint"; $"build"].
Proof.
  destruct (release_ready false) as (A & B & C & D & E & F). split; [exact A|]. split; [exact B|]. split; [exact C|]. split; [exact D|]. split; [exact E|exact F].
Qed.
Lemma released_ok : fst (bundle release_env released_args (start (fs_of release_files) [$"oclint"])) = Val tt.
Proof. vm_compute. reflexivity. Qed.
Section Moved.
(** What was built, the run of bundle, and the tree it left elsewhere. *)
Variables (rf mv : table) (run : filesystem) (k : kind).
Definition seen (src dst : list str) : bool :=
  forallb (fun x => match strip src (fst x) with Some r => is_entry (fs_of mv ([$"opt"; $"oclint"] ++ dst ++ r)) (snd x) | None => true end) rf.
Definition absent (src : list str) : bool := negb (existsb (fun x => path_eqb (fst x) src) rf) && negb (existsb (str_eqb $"..") src) && negb (is_nil src).
Definition there (src dst : list str) : bool := seen src dst && negb (existsb (str_eqb $"..") src) && negb (is_nil src).
Hypothesis No : no_links rf = true.
Lemma dots : forall src, negb (existsb (str_eqb $"..") src) = true -> ~ In $".." src.
Proof. intros src H I. apply negb_true_iff in H. assert (X : existsb (str_eqb $"..") src = true) by (apply existsb_exists; exists $".."; split; [exact I|reflexivity]). congruence. Qed.
Lemma seen_moved : forall src dst r e, there src dst = true -> shows (fs_of rf) src r e -> fs_of mv ([$"opt"; $"oclint"] ++ dst ++ r) = Some e.
Proof.
  intros src dst r e S H. unfold there in S. apply andb_true_iff in S as [S Ns]. apply andb_true_iff in S as [S Up]. apply table_shows in H; [|exact No|apply dots, Up|intros ->; discriminate Ns].
  unfold seen in S. rewrite forallb_forall in S. specialize (S _ H). cbn [fst snd] in S. rewrite strip_app in S. apply is_entry_eq, S.
Qed.
Lemma unseen : forall src e, absent src = true -> ~ shows (fs_of rf) src [] e.
Proof.
  intros src e S H. unfold absent in S. apply andb_true_iff in S as [S Ns]. apply andb_true_iff in S as [S Up]. apply negb_true_iff in S.
  apply table_shows in H; [|exact No|apply dots, Up|intros ->; discriminate Ns]. rewrite app_nil_r in H.
  assert (X : existsb (fun x => path_eqb (fst x) src) rf = true) by (apply existsb_exists; exists (src, e); split; [exact H|now apply path_eqb_eq]). congruence.
Qed.
Hypothesis Kd : k_dev k = None.
Hypothesis Km : k_mac k = false.
Hypothesis Is : forall r e, run r = Some e <-> belongs (fs_of rf) k r e.
Hypothesis Fixed : forallb (fun x => is_entry (fs_of mv ([$"opt"; $"oclint"] ++ fst x)) (snd x))
  [([], Directory); ([$"LICENSE"], Regular false $"BSD"); ([$"bin"; $"oclint"], Symlink $"oclint-26.02"); ([$"lib"], Directory); ([$"lib"; $"oclint"], Directory)] = true.
Hypothesis Lic : there (k_root k ++ [$"LICENSE"]) [$"LICENSE"] = true.
Hypothesis Trees : there (built k [$"oclint-driver"; $"bin"]) [$"bin"] && there (built k [$"oclint-rules"; $"rules.dl"]) [$"lib"; $"oclint"; $"rules"]
  && there (built k [$"oclint-reporters"; $"reporters.dl"]) [$"lib"; $"oclint"; $"reporters"] && there (k_llvm k ++ [$"lib"; $"clang"]) [$"lib"; $"clang"] = true.
Hypothesis Gone : absent (k_llvm k ++ [$"LICENSE.TXT"]) && absent (k_root k ++ [$"llvm"; $"LICENSE.TXT"])
  && absent (k_root k ++ [$"oclint-json-compilation-database"; $"oclint-json-compilation-database"]) = true.
Hypothesis Back : forallb (fun x => match strip [$"opt"; $"oclint"] (fst x) with Some r => is_entry (run r) (snd x) | None => true end) mv = true.
Lemma moved_gen : forall r, fs_of mv ([$"opt"; $"oclint"] ++ r) = run r.
Proof.
  apply andb_true_iff in Trees as [T T4]. apply andb_true_iff in T as [T T3]. apply andb_true_iff in T as [T1 T2]. apply andb_true_iff in Gone as [G G3]. apply andb_true_iff in G as [G1 G2].
  rewrite forallb_forall in Fixed, Back.
  assert (A : forall r e, fs_of mv ([$"opt"; $"oclint"] ++ r) = Some e -> run r = Some e).
  { intros r e F. apply table_in in F. specialize (Back _ F). cbn [fst snd] in Back. rewrite strip_app in Back. apply is_entry_eq, Back. }
  assert (Fx : forall r e, In (r, e) [([], Directory); ([$"LICENSE"], Regular false $"BSD"); ([$"bin"; $"oclint"], Symlink $"oclint-26.02"); ([$"lib"], Directory); ([$"lib"; $"oclint"], Directory)] ->
    fs_of mv ([$"opt"; $"oclint"] ++ r) = Some e) by (intros r e I; apply is_entry_eq; exact (Fixed _ I)).
  assert (B : forall r e, run r = Some e -> fs_of mv ([$"opt"; $"oclint"] ++ r) = Some e).
  { intros r e F. apply Is in F.
    destruct F as [ |x own Ho Hn|x own c a Ho Hs Hh|r0 e0 Hv Hs| |v Hd|n e0 Sn| | |r0 e0 Hv|r0 e0 F Hv|r0 e0 F Hv|F M I|r0 e0 F M I Hv].
    - apply Fx. left. reflexivity.
    - apply (seen_moved _ [$"LICENSE"]) in Ho; [|exact Lic]. rewrite app_nil_r in Ho. rewrite (Fx [$"LICENSE"] (Regular false $"BSD")) in Ho by (right; left; reflexivity).
      rewrite (Fx [$"LICENSE"] (Regular false $"BSD")) by (right; left; reflexivity). congruence.
    - exfalso. remember (Some c) as o eqn:Eo. destruct Hs as [x' c' H|x' c' _ H|_ _]; [exact (unseen _ _ G1 H)|exact (unseen _ _ G2 H)|discriminate Eo].
    - exact (seen_moved _ [$"bin"] _ _ T1 Hv).
    - apply Fx. right. right. left. reflexivity.
    - congruence.
    - exfalso. destruct Sn as [x c _ H|x c _ M _]; [exact (unseen _ _ G3 H)|congruence].
    - apply Fx. right. right. right. left. reflexivity.
    - apply Fx. right. right. right. right. left. reflexivity.
    - exact (seen_moved _ [$"lib"; $"oclint"; $"rules"] _ _ T2 Hv).
    - exact (seen_moved _ [$"lib"; $"oclint"; $"reporters"] _ _ T3 Hv).
    - exact (seen_moved _ [$"lib"; $"clang"] _ _ T4 Hv).
    - congruence.
    - congruence. }
  intros r. destruct (fs_of mv ([$"opt"; $"oclint"] ++ r)) as [e|] eqn:E; [symmetry; apply A, E|].
  destruct (run r) as [e|] eqn:F; [|reflexivity]. apply B in F. congruence.
Qed.
End Moved.
Lemma moved_is_release : forall r, fs_of moved_files ([$"opt"; $"oclint"] ++ r) = m_fs (snd (bundle release_env released_args (start (fs_of release_files) [$"oclint"]))) ([$"oclint"; $"build"] ++ release_name release_env released_args :: r).
Proof.
  apply (moved_gen release_files moved_files (fun r => m_fs (snd (bundle release_env released_args (start (fs_of release_files) [$"oclint"]))) ([$"oclint"; $"build"] ++ release_name release_env released_args :: r)) (kind_of release_env released_args)).
  - vm_compute. reflexivity.
  - reflexivity.
  - reflexivity.
  - exact (release_is release_env released_args (fs_of release_files) [$"oclint"] [$"oclint"; $"build"] released_ready ltac:(discriminate) released_ok).
  - vm_compute. reflexivity.
  - vm_compute. reflexivity.
  - vm_compute. reflexivity.
  - vm_compute. reflexivity.
  - vm_compute. reflexivity.
Qed.

(** The rules of a library are known by its content. *)
Definition numbered (c : str) : option (list nat) := Some [length c].
Definition moved_world (mv : table) : world :=
  {| w_list := list_of mv opt_r [$"w"]; w_rulelib := rulelib_of mv opt_r [$"w"] numbered;
     w_replib := fun _ => None; w_read := fun _ => None; w_yaml := w_yaml (exi_world $"oclint");
     w_env := started (can_of (fs_of mv) opt_r [$"w"]) [$"/opt/oclint/bin"] (Some $"/w") (Some $"/w") None $"oclint";
     w_cmdline := w_cmdline (exi_world $"oclint"); w_listRules := false; w_canOpen := fun _ => true; w_accepts := fun _ => 0;
     w_rules := w_rules (exi_world $"oclint"); w_driver := w_driver (exi_world $"oclint"); w_hash := fun _ => 0%Z |}.
Definition rules_at : list str := [$"opt"; $"oclint"; $"lib"; $"oclint"; $"rules"].
Section Started.
Variable mv : table.
Let fs := fs_of mv.
Hypothesis Links : forallb (fun x => match snd x with Symlink to => path_eqb (fst x) [$"opt"; $"oclint"; $"bin"; $"oclint"] && str_eqb to $"oclint-26.02" | _ => true end) mv = true.
Hypothesis Program : match fs [$"opt"; $"oclint"; $"bin"; $"oclint-26.02"] with Some (Regular true _) => true | _ => false end = true.
Hypothesis Dirs : forallb (fun q => match fs q with Some Directory => true | _ => false end) [[$"w"]; [$"opt"; $"oclint"; $"bin"]; rules_at] = true.
Hypothesis Sane : forallb (fun x => sane_entry (fst x)) mv = true.
Hypothesis Cwd : locate fs opt_r [$"w"] $"/w" = Some [$"w"].
Hypothesis Bin : locate fs opt_r [$"w"] $"/opt/oclint/bin" = Some [$"opt"; $"oclint"; $"bin"].
Hypothesis Can : can_of fs opt_r [$"w"] (in_directory $"/opt/oclint/bin" $"oclint") = true.
Hypothesis Plain : forallb (fun x => match strip rules_at (fst x) with Some [n] => match snd x with Regular _ _ => negb (str_eqb n $"..") | _ => false end | _ => true end) mv = true.
Hypothesis Some_rule : match fs (rules_at ++ [$"libMyFirstRule.so"]) with Some (Regular _ _) => true | _ => false end = true.
Hypothesis Walk : walk fs opt_r [$"opt"; $"oclint"] [$"lib"; $"oclint"; $"rules"] = Some rules_at.
Lemma started_resolves : resolves fs opt_r.
Proof.
  intros d n to F. assert (Dn : d = [$"opt"; $"oclint"; $"bin"] /\ to = $"oclint-26.02").
  { apply table_in in F. rewrite forallb_forall in Links. specialize (Links _ F). cbn [fst snd] in Links. apply andb_true_iff in Links as [L1 L2]. apply path_eqb_eq in L1. apply str_eqb_eq in L2.
    apply (f_equal (@removelast _)) in L1. rewrite removelast_last in L1. split; [exact L1|exact L2]. }
  destruct Dn as (-> & ->). destruct (fs [$"opt"; $"oclint"; $"bin"; $"oclint-26.02"]) as [[|[|] c|to]|] eqn:P; try discriminate Program.
  rewrite forallb_forall in Dirs. assert (Db : fs [$"opt"; $"oclint"; $"bin"] = Some Directory) by (specialize (Dirs [$"opt"; $"oclint"; $"bin"] (or_intror (or_introl eq_refl))); destruct (fs [$"opt"; $"oclint"; $"bin"]) as [[]|]; congruence).
  eexists. split; [reflexivity|]. right. exists [], $"oclint-26.02", [$"opt"; $"oclint"; $"bin"], true, c.
  split; [reflexivity|]. split; [discriminate|]. split; [constructor|]. split; [right; exact Db|]. split; (exact P || reflexivity).
Qed.
Lemma started_case :
  let can := can_of fs opt_r [$"w"] in let w := moved_world mv in
  sane fs /\ current fs [$"w"] (Some $"/w") /\ (forall p, can p = true <-> runnable fs [$"w"] p) /\ ~ In [] [$"/opt/oclint/bin"]
  /\ executed fs [$"w"] [$"/opt/oclint/bin"] $"oclint" $"/opt/oclint/bin/oclint" /\ lies_in $"/opt/oclint/bin/oclint" $"/opt/oclint/bin"
  /\ opens fs [$"w"] $"/opt/oclint/bin" ([$"opt"; $"oclint"] ++ [$"bin"]) /\ is_directory fs ([$"opt"; $"oclint"] ++ [$"bin"])
  /\ w_env w = started can [$"/opt/oclint/bin"] (Some $"/w") (Some $"/w") None $"oclint"
  /\ lists_directories fs [$"w"] w /\ opens_libraries fs [$"w"] numbered w
  /\ exists s rules, options_are w s /\ argRulesPath s = [] /\ rules_loaded w s rules.
Proof.
  cbv zeta. pose proof started_resolves as R. rewrite forallb_forall in Dirs.
  assert (Dir : forall q, In q [[$"w"]; [$"opt"; $"oclint"; $"bin"]; rules_at] -> is_directory fs q) by (intros q I; right; specialize (Dirs q I); destruct (fs q) as [[]|]; congruence).
  assert (Sn : sane fs) by now apply table_sane.
  assert (Cu : current fs [$"w"] (Some $"/w")) by (split; [apply Dir; left; reflexivity|split; [reflexivity|apply (locate_spec _ opt_r); [exact R|exact Cwd]]]).
  assert (Ca : forall p, can_of fs opt_r [$"w"] p = true <-> runnable fs [$"w"] p) by now apply can_spec.
  assert (Ne : ~ In [] [$"/opt/oclint/bin"]) by (intros [H|[]]; discriminate H).
  assert (Ns : ~ In "/"%char $"oclint") by (intros H; repeat (destruct H as [H|H]; [discriminate H|]); contradiction H).
  assert (Ex : executed fs [$"w"] [$"/opt/oclint/bin"] $"oclint" $"/opt/oclint/bin/oclint").
  { change $"/opt/oclint/bin/oclint" with (in_directory $"/opt/oclint/bin" $"oclint").
    apply (by_name _ _ _ $"oclint" [] $"/opt/oclint/bin" []); [exact Ns|reflexivity|intros e []|]. apply Ca, Can. }
  assert (Li : lies_in $"/opt/oclint/bin/oclint" $"/opt/oclint/bin").
  { exists $"oclint". split; [discriminate|]. split; [exact Ns|]. left. split; [reflexivity|discriminate]. }
  assert (Od : opens fs [$"w"] $"/opt/oclint/bin" [$"opt"; $"oclint"; $"bin"]) by (apply (locate_spec _ opt_r); [exact R|exact Bin]).
  assert (Db : is_directory fs [$"opt"; $"oclint"; $"bin"]) by (apply Dir; right; left; reflexivity).
  assert (Ld : lists_directories fs [$"w"] (moved_world mv)) by (apply (list_of_spec mv opt_r); [exact R|reflexivity]).
  assert (Ol : opens_libraries fs [$"w"] numbered (moved_world mv)) by (apply (rulelib_of_spec mv opt_r); [exact R|reflexivity]).
  split; [exact Sn|]. split; [exact Cu|]. split; [exact Ca|]. split; [exact Ne|]. split; [exact Ex|]. split; [exact Li|].
  split; [exact Od|]. split; [exact Db|]. split; [reflexivity|]. split; [exact Ld|]. split; [exact Ol|].
  assert (Op : exists s, options_are (moved_world mv) s /\ argRulesPath s = []).
  { eexists. split; [eexists; split; reflexivity|]. reflexivity. }
  destruct Op as (s & Os & Rp). exists s.
  destruct (c136_complete_installation_loads fs [$"w"] (Some $"/w") (Some $"/w") (can_of fs opt_r [$"w"]) [$"/opt/oclint/bin"] None $"oclint" $"/opt/oclint/bin/oclint"
     $"/opt/oclint/bin" [$"opt"; $"oclint"; $"bin"] rules_at numbered (moved_world mv) s) as (rules & Rl); auto.
  { apply (walk_spec _ opt_r R). exact Walk. } { apply Dir. right. right. left. reflexivity. }
  { intros n V F. destruct (fs (rules_at ++ [n])) as [en|] eqn:E; [|contradiction F; reflexivity]. clear F. pose proof E as E'. apply table_in in E'.
    rewrite forallb_forall in Plain. specialize (Plain _ E'). cbn [fst snd] in Plain. rewrite strip_app in Plain. destruct en as [|x c|to]; [discriminate|..|discriminate].
    apply negb_true_iff, str_eqb_neq in Plain. exists (rules_at ++ [n]), x, c, [length c]. split; [exact (l_file _ _ _ _ _ Plain E)|]. split; [exact E|reflexivity]. }
  { destruct (fs (rules_at ++ [$"libMyFirstRule.so"])) as [[|x c|to]|] eqn:E; try discriminate Some_rule.
    exists $"libMyFirstRule.so". eexists _, x, c, (length c), []. split; [intros r H; discriminate H|]. split; [exact (l_file _ rules_at $"libMyFirstRule.so" x c ltac:(discriminate) E)|split; [exact E|reflexivity]]. }
  exists rules. split; [exact Os|]. split; [exact Rp|exact Rl].
Qed.
End Started.
Lemma moved_links : forallb (fun x => match snd x with Symlink to => path_eqb (fst x) [$"opt"; $"oclint"; $"bin"; $"oclint"] && str_eqb to $"oclint-26.02" | _ => true end) moved_files = true.
Proof. vm_compute. reflexivity. Qed.
Lemma moved_program : match (fs_of moved_files) [$"opt"; $"oclint"; $"bin"; $"oclint-26.02"] with Some (Regular true _) => true | _ => false end = true.
Proof. vm_compute. reflexivity. Qed.
Lemma moved_dirs : forallb (fun q => match (fs_of moved_files) q with Some Directory => true | _ => false end) [[$"w"]; [$"opt"; $"oclint"; $"bin"]; rules_at] = true.
Proof. vm_compute. reflexivity. Qed.
Lemma moved_sane : forallb (fun x => sane_entry (fst x)) moved_files = true.
Proof. vm_compute. reflexivity. Qed.
Lemma moved_cwd : locate (fs_of moved_files) opt_r [$"w"] $"/w" = Some [$"w"].
Proof. vm_compute. reflexivity. Qed.
Lemma moved_bin : locate (fs_of moved_files) opt_r [$"w"] $"/opt/oclint/bin" = Some [$"opt"; $"oclint"; $"bin"].
Proof. vm_compute. reflexivity. Qed.
Lemma moved_can : can_of (fs_of moved_files) opt_r [$"w"] (in_directory $"/opt/oclint/bin" $"oclint") = true.
Proof. vm_compute. reflexivity. Qed.
Lemma moved_plain : forallb (fun x => match strip rules_at (fst x) with Some [n] => match snd x with Regular _ _ => negb (str_eqb n $"..") | _ => false end | _ => true end) moved_files = true.
Proof. vm_compute. reflexivity. Qed.
Lemma moved_some_rule : match (fs_of moved_files) (rules_at ++ [$"libMyFirstRule.so"]) with Some (Regular _ _) => true | _ => false end = true.
Proof. vm_compute. reflexivity. Qed.
Lemma moved_walk : walk (fs_of moved_files) opt_r [$"opt"; $"oclint"] [$"lib"; $"oclint"; $"rules"] = Some rules_at.
Proof. vm_compute. reflexivity. Qed.
(** The hypotheses of the theorem hold together: the release of [c150_case] was moved to /opt/oclint
    and oclint is started through PATH. *)
Example c150_rules_run_case : let fs := fs_of moved_files in let P := [$"opt"; $"oclint"] in
  let can := can_of fs opt_r [$"w"] in let w := moved_world moved_files in
  ready release_env released_args (fs_of release_files) (touched release_env released_args [$"oclint"; $"build"]) [$"oclint"; $"build"]
  /\ unlinked (fs_of release_files) (names (e_root release_env)) /\ (ba_archive released_args = true -> plain_system release_env)
  /\ rules_built compile $".so" (e_root release_env) (fs_of release_files) [rule_more]
  /\ fst (bundle release_env released_args (start (fs_of release_files) [$"oclint"])) = Val tt
  /\ (forall r, fs (P ++ r) = m_fs (snd (bundle release_env released_args (start (fs_of release_files) [$"oclint"]))) ([$"oclint"; $"build"] ++ release_name release_env released_args :: r))
  /\ sane fs /\ current fs [$"w"] (Some $"/w") /\ (forall p, can p = true <-> runnable fs [$"w"] p) /\ ~ In [] [$"/opt/oclint/bin"]
  /\ executed fs [$"w"] [$"/opt/oclint/bin"] $"oclint" $"/opt/oclint/bin/oclint" /\ lies_in $"/opt/oclint/bin/oclint" $"/opt/oclint/bin"
  /\ opens fs [$"w"] $"/opt/oclint/bin" (P ++ [$"bin"]) /\ is_directory fs (P ++ [$"bin"])
  /\ w_env w = started can [$"/opt/oclint/bin"] (Some $"/w") (Some $"/w") None $"oclint"
  /\ lists_directories fs [$"w"] w /\ opens_libraries fs [$"w"] numbered w
  /\ exists s rules, options_are w s /\ argRulesPath s = [] /\ rules_loaded w s rules.
Proof.
  cbv zeta. destruct c150_case as (_ & _ & _ & Un & Rb & _).
  split; [exact released_ready|]. split; [exact Un|]. split; [discriminate|]. split; [exact Rb|]. split; [exact released_ok|]. split; [exact moved_is_release|].
  exact (started_case moved_files moved_links moved_program moved_dirs moved_sane moved_cwd moved_bin moved_can moved_plain moved_some_rule moved_walk).
Qed.
