(** * C150: what is built is what is released *)
From Verif Require Import Base BaseFacts ModelScaffold SpecScaffold ModelCMake ModelCMakeTexts ModelCMakeConfig SpecCMake SpecCMakeConfig SpecCMakeReporters SpecCMakeModules ModelRuleTable
  ProofCMake PropCMake PropCMakeCases PropCMakeReporters PropCMakeModules SpecRelease.
From Verif Require Import ModelInstall SpecInstall PropInstall ModelBundle SpecBundle PropBundle.

Lemma configures_once : forall f binary config project given s s', configures f binary config project given s -> configures f binary config project given s' -> s = s'.
Proof.
  intros f binary config project given s s' (n & H) (n' & H'). specialize (H (n + n')). specialize (H' (n + n')). rewrite H in H' by lia. specialize (H' ltac:(lia)). congruence.
Qed.
Lemma unlinked_below : forall fs root r, unlinked fs root -> ~ In $".." r -> unlinked fs (root ++ r).
Proof.
  intros fs root r (Up & L) N. split; [intros I; apply in_app_iff in I; tauto|]. intros q to [(z & ->)|(z & E)]; apply L.
  - left. exists (r ++ z). now rewrite app_assoc.
  - destruct (app_comparable root q r z E) as [(u & ->)|(u & ->)]; [right|left]; now exists u.
Qed.
(** Where there are no links a tree shows what is there. *)
Lemma shows_there : forall fs src r e, unlinked fs src -> src <> [] -> shows fs src r e -> fs (src ++ r) = Some e.
Proof.
  intros fs src r e (Up & L) Ns (Nr & t & W & H).
  assert (F : forall t, follow 40 fs [] (src ++ r) = Some t -> t = src ++ r).
  { apply (plain_follow fs fs 40 [] (src ++ r)). intros a n x E. cbn [app].
    assert (C : below src (a ++ [n]) \/ below (a ++ [n]) src).
    { replace (a ++ n :: x) with ((a ++ [n]) ++ x) in E by now rewrite <- app_assoc.
      destruct (app_comparable src (a ++ [n]) r x E) as [(z & ->)|(z & Ez)]; [right|left]; now exists z. }
    split. { intros ->. assert (I : In $".." (src ++ r)) by (rewrite E; apply in_app_iff; right; now left). apply in_app_iff in I. tauto. }
    split; [reflexivity|]. intros to. now apply L. }
  apply within_follow in W. rewrite (F t W) in H. destruct H as [(E & _)|(_ & H)]; [destruct src; [contradiction|discriminate E]|exact H].
Qed.
Lemma there_shows : forall fs src r x c, closed fs -> ~ In $".." (src ++ r) -> src <> [] -> fs (src ++ r) = Some (Regular x c) -> shows fs src r (Regular x c).
Proof.
  intros fs src r x c Cl Up Ns F. split; [intros I; apply Up, in_app_iff; auto|]. exists (src ++ r). split; [|right; split; [destruct src; [contradiction|discriminate]|exact F]].
  set (ns := src ++ r) in *.
  assert (P : forall z p, ns = p ++ z -> z <> [] -> is_directory fs p).
  { intros z. induction z as [|n z IH]; intros p E N; [contradiction|]. destruct z as [|m z].
    - rewrite E in F. exact (Cl _ _ _ F).
    - assert (D : is_directory fs (p ++ [n])) by (apply IH; [rewrite E, <- app_assoc; reflexivity|discriminate]). destruct D as [D|D]; [destruct p; discriminate D|]. exact (Cl _ _ _ D). }
  assert (G : forall z p, ns = p ++ z -> within fs 40 p z ns).
  { intros z. induction z as [|n z IH]; intros p E; [rewrite app_nil_r in E; subst p; constructor|].
    assert (Nn : n <> $"..") by (intros ->; apply Up; rewrite E; apply in_app_iff; right; now left).
    destruct z as [|m z].
    - rewrite E. apply (w_file fs 40 p n x c Nn). rewrite <- E. exact F.
    - assert (E' : ns = (p ++ [n]) ++ m :: z) by now rewrite <- app_assoc. apply w_down; [exact Nn| |now apply IH].
      destruct (P _ _ E' ltac:(discriminate)) as [D|D]; [destruct p; discriminate D|exact D]. }
  exact (G ns [] eq_refl).
Qed.

(** Where bundle leaves the release, in the build directory. *)
Definition release_name (env : surroundings) (args : bundleargs) : str := if ba_archive args then archived env args else $"oclint-release".

Section Released.
Variables (image : target -> str) (suffix : str) (env : surroundings) (args : bundleargs) (fs : filesystem) (cwd D : list str).
Hypothesis Rd : ready env args fs (touched env args D) D.
Hypothesis Un : unlinked fs (names (e_root env)).
Hypothesis Sys : ba_archive args = true -> plain_system env.
Hypothesis Ok : fst (bundle env args (start fs cwd)) = Val tt.
Let root := e_root env.
Let release (r : list str) : option entry := m_fs (snd (bundle env args (start fs cwd))) (D ++ release_name env args :: r).

Lemma release_is r e : release r = Some e <-> belongs fs (kind_of env args) r e.
Proof.
  unfold release, release_name. destruct (ba_archive args) eqn:Ar.
  - exact (proj1 (c137_archive_holds_the_bundle env args fs cwd D Rd (Sys eq_refl) Ar Ok) r e).
  - exact (c137_bundle_is_complete_and_fresh env args fs cwd D Rd Ar Ok r e).
Qed.
Lemma names_built m d : is_name d = true -> ~ In "/"%char d -> names ($"oclint-" ++ m) = [$"oclint-" ++ m] ->
  names (built_at root m ++ $"/" ++ d) = built (kind_of env args) [$"oclint-" ++ m; d].
Proof.
  intros N1 N2 N3. unfold built_at, built, root. cbn [k_root kind_of].
  replace ((e_root env ++ $"/build/oclint-" ++ m) ++ $"/" ++ d) with (e_root env ++ "/"%char :: ($"build" ++ "/"%char :: (($"oclint-" ++ m) ++ "/"%char :: d))) by (rewrite <- !app_assoc; reflexivity).
  rewrite !names_slash, N3, (names_plain d N1 N2). reflexivity.
Qed.
(** What a directory of the release shows, when it was made from targets. *)
Lemma shown s m d : is_name d = true -> ~ In "/"%char d -> d <> $".." -> $"oclint-" ++ m <> $".." -> names ($"oclint-" ++ m) = [$"oclint-" ++ m] ->
  made image suffix fs s (built_at root m ++ $"/" ++ d) ->
  (forall n r e, shows fs (built (kind_of env args) [$"oclint-" ++ m; d]) (n :: r) e ->
     exists t, In t (s_targets s) /\ put_into s t (built_at root m ++ $"/" ++ d) /\ n = file_name suffix t /\ r = [] /\ e = Regular true (image t))
  /\ forall t, In t (s_targets s) -> put_into s t (built_at root m ++ $"/" ++ d) -> file_name suffix t <> $".." ->
     shows fs (built (kind_of env args) [$"oclint-" ++ m; d]) [file_name suffix t] (Regular true (image t)).
Proof.
  intros N1 N2 N3 N4 N5 (_ & M). rewrite (names_built m d N1 N2 N5) in M. set (src := built _ _) in *.
  assert (Us : unlinked fs src).
  { apply (unlinked_below fs _ _ Un). intros [I|[I|[I|[]]]]; [discriminate I|contradiction|contradiction]. }
  assert (Ns : src <> []) by (unfold src, built; destruct (k_root _); discriminate).
  split.
  - intros n r e H. apply shows_there in H; [|exact Us|exact Ns]. apply M, H.
  - intros t It Pt Nt. destruct Rd as (_ & _ & _ & Cl & _). apply there_shows; [exact Cl| |exact Ns|].
    + intros I. apply in_app_iff in I as [I|[I|[]]]; [exact (proj1 Us I)|exact (Nt I)].
    + apply M. exists t. auto.
Qed.

Lemma rules_released l : rules_built image suffix root fs l ->
  (forall category class, due_rule l category class ->
     exists t, library_of_rule (module_at root $"rules") (built_at root $"rules") category class t
       /\ release [$"lib"; $"oclint"; $"rules"; $"lib" ++ class ++ $"Rule" ++ suffix] = Some (Regular true (image t)))
  /\ (forall n r e, release ($"lib" :: $"oclint" :: $"rules" :: n :: r) = Some e ->
     exists category class t, due_rule l category class /\ n = $"lib" ++ class ++ $"Rule" ++ suffix /\ r = []
       /\ library_of_rule (module_at root $"rules") (built_at root $"rules") category class t /\ e = Regular true (image t)).
Proof.
  intros [e given f g s M Of C H O N Cf Md]. destruct (c146_rules _ _ _ _ _ _ _ M Of C H O N) as (s' & Cf' & _ & Asked & Shipped & Only & _).
  pose proof (configures_once _ _ _ _ _ _ _ Cf Cf') as <-. clear Cf'.
  destruct (shown s $"rules" $"rules.dl" eq_refl ltac:(intros I; cbn in I; repeat destruct I as [I|I]; discriminate || contradiction) ltac:(discriminate) ltac:(discriminate) eq_refl Md) as (S1 & S2).
  assert (Nm : forall category class t, library_of_rule (module_at root $"rules") (built_at root $"rules") category class t ->
     file_name suffix t = $"lib" ++ class ++ $"Rule" ++ suffix /\ put_into s t (built_at root $"rules" ++ $"/rules.dl")).
  { intros category class t [Tn Tk _ Tp _]. unfold file_name, put_into. rewrite Tk, Tn, <- !app_assoc. split; [reflexivity|]. apply Tp; [left; reflexivity|reflexivity]. }
  assert (Put : forall category class t, In t (s_targets s) -> library_of_rule (module_at root $"rules") (built_at root $"rules") category class t ->
     release [$"lib"; $"oclint"; $"rules"; $"lib" ++ class ++ $"Rule" ++ suffix] = Some (Regular true (image t))).
  { intros category class t It L. destruct (Nm _ _ _ L) as (En & P). rewrite <- En. apply release_is. apply b_rules. apply (S2 t It P). rewrite En. discriminate. }
  split.
  - intros category class [(a & Ia & <- & <-)|(r & Ir & Br & <- & Ef)].
    + destruct (Asked a Ia) as (t & It & L). exists t. split; [exact L|]. exact (Put _ _ _ It L).
    + destruct (Shipped r Ir Br) as (t & class' & It & Ef' & L). rewrite Ef in Ef'. apply app_inv_tail in Ef'. subst class'. exists t. split; [exact L|]. exact (Put _ _ _ It L).
  - intros n r e' R. apply release_is, belongs_rules in R. destruct (S1 n r e' R) as (t & It & P & -> & -> & ->).
    assert (K : t_kind t <> Static) by (unfold put_into in P; destruct (t_kind t); [discriminate|contradiction|discriminate]).
    destruct (Only t It K) as [(a & Ia & L)|(r & class & Ir & Br & Ef & L)]; destruct (Nm _ _ _ L) as (En & _); rewrite En; do 3 eexists.
    + split; [left; exists a; split; [exact Ia|split; reflexivity]|]. split; [reflexivity|]. split; [reflexivity|]. split; [exact L|reflexivity].
    + split; [right; exists r; split; [exact Ir|split; [exact Br|split; [reflexivity|exact Ef]]]|]. split; [reflexivity|]. split; [reflexivity|]. split; [exact L|reflexivity].
Qed.

Lemma belongs_reporters fs0 k r e : belongs fs0 k ($"lib" :: $"oclint" :: $"reporters" :: r) e -> shows fs0 (built k [$"oclint-reporters"; $"reporters.dl"]) r e.
Proof.
  intros H. inversion H as [ |x own Ho Hn E|x own c a Ho Hs Hh E|r0 e0 Hv Hs E| E|v Hd E|n e0 Sn E| E| E|r0 e0 Hv E|r0 e0 F Hv E|r0 e0 F Hv E|F M I E|r0 e0 F M I Hv E];
    subst; try discriminate; assumption.
Qed.
Lemma reporters_released l : ba_docgen args = false -> reporters_built image suffix root fs l ->
  (forall class, due_reporter l class ->
     exists t, library_of_reporter (module_at root $"reporters") (built_at root $"reporters") class t
       /\ release [$"lib"; $"oclint"; $"reporters"; $"lib" ++ class ++ $"Reporter" ++ suffix] = Some (Regular true (image t)))
  /\ (forall n r e, release ($"lib" :: $"oclint" :: $"reporters" :: n :: r) = Some e ->
     exists class t, due_reporter l class /\ n = $"lib" ++ class ++ $"Reporter" ++ suffix /\ r = []
       /\ library_of_reporter (module_at root $"reporters") (built_at root $"reporters") class t /\ e = Regular true (image t)).
Proof.
  intros Full [e given f g s M Of C H O Cf Md]. destruct (c148_reporters _ _ _ _ _ _ _ M Of C H O) as (s' & Cf' & _ & Asked & Shipped & Only & _).
  pose proof (configures_once _ _ _ _ _ _ _ Cf Cf') as <-. clear Cf'.
  destruct (shown s $"reporters" $"reporters.dl" eq_refl ltac:(intros I; cbn in I; repeat destruct I as [I|I]; discriminate || contradiction) ltac:(discriminate) ltac:(discriminate) eq_refl Md) as (S1 & S2).
  assert (Nm : forall class t, library_of_reporter (module_at root $"reporters") (built_at root $"reporters") class t ->
     file_name suffix t = $"lib" ++ class ++ $"Reporter" ++ suffix /\ put_into s t (built_at root $"reporters" ++ $"/reporters.dl")).
  { intros class t [Tn Tk _ Tp _]. unfold file_name, put_into. rewrite Tk, Tn, <- !app_assoc. split; [reflexivity|]. apply Tp; [left; reflexivity|reflexivity]. }
  assert (Put : forall class t, In t (s_targets s) -> library_of_reporter (module_at root $"reporters") (built_at root $"reporters") class t ->
     release [$"lib"; $"oclint"; $"reporters"; $"lib" ++ class ++ $"Reporter" ++ suffix] = Some (Regular true (image t))).
  { intros class t It L. destruct (Nm _ _ L) as (En & P). rewrite <- En. apply release_is. apply b_reporters; [exact Full|]. apply (S2 t It P). rewrite En. discriminate. }
  split.
  - intros class [Sh|(a & Ia & <-)].
    + destruct (Shipped class Sh) as (t & It & L). exists t. split; [exact L|]. exact (Put _ _ It L).
    + destruct (Asked a Ia) as (t & It & L). exists t. split; [exact L|]. exact (Put _ _ It L).
  - intros n r e' R. apply release_is, belongs_reporters in R. destruct (S1 n r e' R) as (t & It & P & -> & -> & ->).
    destruct (Only t It) as (class & L & Due). destruct (Nm _ _ L) as (En & _). rewrite En. exists class, t. split; [exact Due|]. split; [reflexivity|]. split; [reflexivity|]. split; [exact L|reflexivity].
Qed.
Lemma program_released docs : driver_built image suffix root fs docs ->
  leads (m_fs (snd (bundle env args (start fs cwd)))) (D ++ [release_name env args; $"bin"]) [$"oclint"] (D ++ [release_name env args; $"bin"; $"oclint-26.02"])
  /\ exists t, driver_program (module_at root $"driver") $"oclint-26.02" [$"main.cpp"; $"reporters_dlfcn_port.cpp"; $"rules_dlfcn_port.cpp"] t
       /\ release [$"bin"; $"oclint-26.02"] = Some (Regular true (image t)).
Proof.
  intros [e given f s M Of Ad Lv C Cf Md]. destruct (c149_driver _ _ _ _ _ false docs M Of Ad Lv C) as (s' & Cf' & B & (t & It & P) & _).
  pose proof (configures_once _ _ _ _ _ _ _ Cf Cf') as <-. clear Cf'.
  destruct (shown s $"driver" $"bin" eq_refl ltac:(intros I; cbn in I; repeat destruct I as [I|I]; discriminate || contradiction) ltac:(discriminate) ltac:(discriminate) eq_refl Md) as (_ & S2).
  assert (En : file_name suffix t = $"oclint-26.02") by (unfold file_name; rewrite (dp_kind _ _ _ _ P); exact (dp_name _ _ _ _ P)).
  assert (Pt : put_into s t (built_at root $"driver" ++ $"/bin")) by (unfold put_into; rewrite (dp_kind _ _ _ _ P); exact (SpecCMakeModules.b_programs _ _ _ _ _ _ _ B)).
  assert (R : release [$"bin"; $"oclint-26.02"] = Some (Regular true (image t))).
  { apply release_is. apply b_programs; [rewrite <- En; apply (S2 t It Pt); rewrite En; discriminate|]. intros n e' Sc E. destruct Sc as [x c _ _|x c _ _ _]; [discriminate E|discriminate E]. }
  split; [|exists t; split; [exact P|exact R]].
  assert (N : release [$"bin"; $"oclint"] = Some (Symlink $"oclint-26.02")) by (apply release_is; apply b_name).
  unfold release in R, N.
  replace (D ++ [release_name env args; $"bin"; $"oclint-26.02"]) with ((D ++ [release_name env args; $"bin"]) ++ [$"oclint-26.02"]) in * by (rewrite <- app_assoc; reflexivity).
  replace (D ++ [release_name env args; $"bin"; $"oclint"]) with ((D ++ [release_name env args; $"bin"]) ++ [$"oclint"]) in N by (rewrite <- app_assoc; reflexivity).
  apply (l_link _ _ $"oclint" $"oclint-26.02"); [discriminate|exact N|].
  apply (l_file _ _ $"oclint-26.02" true (image t)); [discriminate|exact R].
Qed.
End Released.

(** A successful run of bundle in a checkout without links, after all was built: for each rule that
    is shipped or was scaffolded the release has the library built from its source, and nothing
    else is where the rules are looked for. *)
Theorem c150_rules : forall image suffix env args fs cwd D l,
  ready env args fs (touched env args D) D -> unlinked fs (names (e_root env)) -> (ba_archive args = true -> plain_system env) ->
  rules_built image suffix (e_root env) fs l ->
  fst (bundle env args (start fs cwd)) = Val tt ->
  let release r := m_fs (snd (bundle env args (start fs cwd))) (D ++ release_name env args :: r) in
  let library := library_of_rule (module_at (e_root env) $"rules") (built_at (e_root env) $"rules") in
  (forall category class, due_rule l category class ->
     exists t, library category class t /\ release [$"lib"; $"oclint"; $"rules"; $"lib" ++ class ++ $"Rule" ++ suffix] = Some (Regular true (image t)))
  /\ (forall n r e, release ($"lib" :: $"oclint" :: $"rules" :: n :: r) = Some e ->
     exists category class t, due_rule l category class /\ n = $"lib" ++ class ++ $"Rule" ++ suffix /\ r = [] /\ library category class t /\ e = Regular true (image t)).
Proof. intros image suffix env args fs cwd D l Rd Un Sys B Ok release library. exact (rules_released image suffix env args fs cwd D Rd Un Sys Ok l B). Qed.
(** So for the reporters. *)
Theorem c150_reporters : forall image suffix env args fs cwd D l,
  ready env args fs (touched env args D) D -> unlinked fs (names (e_root env)) -> (ba_archive args = true -> plain_system env) -> ba_docgen args = false ->
  reporters_built image suffix (e_root env) fs l ->
  fst (bundle env args (start fs cwd)) = Val tt ->
  let release r := m_fs (snd (bundle env args (start fs cwd))) (D ++ release_name env args :: r) in
  let library := library_of_reporter (module_at (e_root env) $"reporters") (built_at (e_root env) $"reporters") in
  (forall class, due_reporter l class ->
     exists t, library class t /\ release [$"lib"; $"oclint"; $"reporters"; $"lib" ++ class ++ $"Reporter" ++ suffix] = Some (Regular true (image t)))
  /\ (forall n r e, release ($"lib" :: $"oclint" :: $"reporters" :: n :: r) = Some e ->
     exists class t, due_reporter l class /\ n = $"lib" ++ class ++ $"Reporter" ++ suffix /\ r = [] /\ library class t /\ e = Regular true (image t)).
Proof. intros image suffix env args fs cwd D l Rd Un Sys Dg B Ok release library. exact (reporters_released image suffix env args fs cwd D Rd Un Sys Ok l Dg B). Qed.
(** The name oclint leads, in the release, to the program that was built from main.cpp. *)
Theorem c150_program : forall image suffix env args fs cwd D docs,
  ready env args fs (touched env args D) D -> unlinked fs (names (e_root env)) -> (ba_archive args = true -> plain_system env) ->
  driver_built image suffix (e_root env) fs docs ->
  fst (bundle env args (start fs cwd)) = Val tt ->
  let fs' := m_fs (snd (bundle env args (start fs cwd))) in
  exists p t, leads fs' (D ++ [release_name env args; $"bin"]) [$"oclint"] p /\ fs' p = Some (Regular true (image t))
    /\ driver_program (module_at (e_root env) $"driver") $"oclint-26.02" [$"main.cpp"; $"reporters_dlfcn_port.cpp"; $"rules_dlfcn_port.cpp"] t.
Proof.
  intros image suffix env args fs cwd D docs Rd Un Sys B Ok fs'. destruct (program_released image suffix env args fs cwd D Rd Un Sys Ok docs B) as (L & t & P & R).
  eexists. exists t. split; [exact L|]. split; [exact R|exact P].
Qed.

(** ** A concrete case *)
Fixpoint strip (p q : list str) : option (list str) :=
  match p, q with [], _ => Some q | x :: p', y :: q' => if str_eqb x y then strip p' q' else None | _, [] => None end.
Lemma strip_app : forall p r, strip p (p ++ r) = Some r.
Proof. induction p as [|x p IH]; intros r; [reflexivity|]. cbn [strip app]. rewrite str_eqb_refl. apply IH. Qed.
Definition putb (s : cstate) (t : target) (d : str) : bool :=
  match t_kind t with
  | Executable => match s_vars s $"EXECUTABLE_OUTPUT_PATH" with Some x => str_eqb x d | None => false end
  | Shared => existsb (fun p => str_eqb (fst p) $"LIBRARY_OUTPUT_DIRECTORY" && str_eqb (snd p) d) (t_properties t)
  | Static => false
  end.
Lemma putb_spec : forall s t d, putb s t d = true <-> put_into s t d.
Proof.
  intros s t d. unfold putb, put_into. destruct (t_kind t).
  - rewrite existsb_exists. split.
    + intros ((k & x) & I & E). cbn [fst snd] in E. apply andb_true_iff in E as [E1 E2]. apply str_eqb_eq in E1, E2. subst k x. exact I.
    + intros I. eexists. split; [exact I|]. cbn [fst snd]. rewrite !str_eqb_refl. reflexivity.
  - split; [discriminate|contradiction].
  - destruct (s_vars s _) as [x|]; [|split; discriminate]. rewrite str_eqb_eq. split; congruence.
Qed.
Definition is_image (image : target -> str) (e : option entry) (t : target) : bool :=
  match e with Some (Regular true c) => str_eqb c (image t) | _ => false end.
Lemma is_image_spec : forall image e t, is_image image e t = true <-> e = Some (Regular true (image t)).
Proof.
  intros image [[|[|] c|to]|] t; cbn [is_image]; try (split; discriminate). rewrite str_eqb_eq. split; [intros ->; reflexivity|]. intros E. congruence.
Qed.
Definition madeb (image : target -> str) (suffix : str) (l : table) (s : cstate) (d : str) : bool :=
  match fs_of l (names d) with Some Directory => true | _ => false end
  && forallb (fun x => match strip (names d) (fst x) with
       | Some (n :: r) => existsb (fun t => putb s t d && str_eqb n (file_name suffix t) && is_nil r && is_image image (Some (snd x)) t) (s_targets s)
       | _ => true end) l
  && forallb (fun t => negb (putb s t d) || is_image image (fs_of l (names d ++ [file_name suffix t])) t) (s_targets s).
Lemma madeb_made : forall image suffix l s d, madeb image suffix l s d = true -> made image suffix (fs_of l) s d.
Proof.
  intros image suffix l s d H. unfold madeb in H. apply andb_true_iff in H as [H H3]. apply andb_true_iff in H as [H1 H2]. rewrite forallb_forall in H2, H3.
  split; [destruct (fs_of l (names d)) as [[]|]; congruence|]. intros n r e. split.
  - intros F. apply table_in in F. specialize (H2 _ F). cbn [fst snd] in H2. rewrite strip_app in H2. apply existsb_exists in H2 as (t & It & E).
    apply andb_true_iff in E as [E E4]. apply andb_true_iff in E as [E E3]. apply andb_true_iff in E as [E1 E2]. apply is_image_spec in E4. apply str_eqb_eq in E2. apply putb_spec in E1.
    exists t. split; [exact It|]. split; [exact E1|]. split; [exact E2|]. split; [destruct r; [reflexivity|discriminate]|congruence].
  - intros (t & It & P & -> & -> & ->). specialize (H3 t It). apply putb_spec in P. rewrite P in H3. apply is_image_spec in H3. exact H3.
Qed.
Definition state_of (r : result) : cstate := match r with Done s => s | _ => {| s_vars := fun _ => None; s_macros := []; s_targets := []; s_tests := []; s_dirs := [] |} end.
Lemma configured_state : forall f binary config project given, (match configure f binary config 400 project given with Done _ => true | _ => false end) = true ->
  configures f binary config project given (state_of (configure f binary config 400 project given)).
Proof.
  intros f binary config project given H. exists 400. apply configure_settles; [|destruct (configure _ _ _ _ _ _); discriminate].
  destruct (configure f binary config 400 project given); [reflexivity|discriminate H|discriminate H].
Qed.
(** A checkout in /oclint with one rule and one reporter more than are shipped. *)
Definition rule_more : ruleargs := asked $"MyFirst" $"my_rules" true.
Definition reporter_more : repargs := wanted $"Markdown" true.
Definition rules_files : files := fst (scaffoldRule home sample rule_more).
Definition reporters_files : files := after reporters_sample reporter_more.
Definition driver_files : files := copy_of driver_lists driver_sources $"/oclint/oclint-driver".
Definition rules_state : cstate := state_of (configure rules_files $"/oclint/build/oclint-rules" (oclint_config around) 400 home linux).
Definition reporters_state : cstate := state_of (configure reporters_files $"/oclint/build/oclint-reporters" (oclint_config around) 400 reporters_home linux).
Definition driver_state : cstate := state_of (configure driver_files $"/oclint/build/oclint-driver" (oclint_config around) 400 $"/oclint/oclint-driver" linux).
Definition compile (t : target) : str := concat (t_sources t).
Definition made_files (s : cstate) (d : str) : table :=
  map (fun t => (names d ++ [file_name $".so" t], Regular true (compile t))) (filter (fun t => putb s t d) (s_targets s)).
Definition release_files : table :=
  [([$"oclint"], Directory); ([$"oclint"; $"LICENSE"], Regular false $"BSD"); ([$"oclint"; $"build"], Directory);
   ([$"oclint"; $"build"; $"oclint-driver"], Directory); ([$"oclint"; $"build"; $"oclint-driver"; $"bin"], Directory);
   ([$"oclint"; $"build"; $"oclint-rules"], Directory); ([$"oclint"; $"build"; $"oclint-rules"; $"rules.dl"], Directory);
   ([$"oclint"; $"build"; $"oclint-reporters"], Directory); ([$"oclint"; $"build"; $"oclint-reporters"; $"reporters.dl"], Directory);
   ([$"llvm"], Directory); ([$"llvm"; $"lib"], Directory); ([$"llvm"; $"lib"; $"clang"], Directory); ([$"llvm"; $"lib"; $"clang"; $"stddef.h"], Regular false $"header")]
  ++ made_files rules_state $"/oclint/build/oclint-rules/rules.dl" ++ made_files reporters_state $"/oclint/build/oclint-reporters/reporters.dl"
  ++ made_files driver_state $"/oclint/build/oclint-driver/bin".
Definition release_env : surroundings :=
  {| e_root := $"/oclint"; e_kernel := $"Linux"; e_kernel_version := $"6.1"; e_arch := $"x86_64"; e_git := Some $"abc";
     e_pack := fun n _ => n; e_breaks := fun _ => None |}.
Lemma release_ready : forall ar, ready release_env (case_args ar $"/llvm") (fs_of release_files) (touched release_env (case_args ar $"/llvm") [$"oclint"; $"build"]) [$"oclint"; $"build"].
Proof.
  intros ar. change [$"oclint"; $"build"] with (names (e_root release_env) ++ [$"build"]). apply c137_plain_checkout_is_ready.
  - reflexivity.
  - reflexivity.
  - intros h [= <-] I. repeat (destruct I as [I|I]; [discriminate I|]). contradiction I.
  - apply table_closed. vm_compute. reflexivity.
  - apply table_unlinked; [vm_compute; reflexivity|]. intros [I|[]]; discriminate I.
  - apply table_unlinked; [vm_compute; reflexivity|]. intros [I|[]]; discriminate I.
  - change (names (e_root release_env) ++ [$"build"]) with [$"oclint"; $"build"]. intros q r E. destruct q as [|q1 [|q2 [|q3 q]]]; [now left| | |discriminate E]; right.
    + injection E as <- _. vm_compute. reflexivity.
    + injection E as <- <- _. vm_compute. reflexivity.
  - change (names (e_root release_env) ++ [$"build"]) with [$"oclint"; $"build"]. intros t It. assert (H : exists n, t = [$"oclint"; $"build"; n]).
    { destruct It as [<-|It]; [eexists; reflexivity|]. destruct ar; cbn in It; [|contradiction]. destruct It as [<-|[<-|[]]]; eexists; reflexivity. }
    destruct H as (n & ->). split; intros (z & E); discriminate E.
Qed.
Lemma linux_machine : forall module project binary, ~ In ";"%char project -> ~ In ";"%char binary ->
  match oclint_config around (at_include module project binary linux) with Some _ => true | None => false end = true -> SpecCMake.machine module project binary around linux.
Proof.
  intros module project binary N1 N2 X. split; [exact N1|exact N2| | | |reflexivity].
  - intros E. rewrite E in X. clear E. discriminate X.
  - intros v w k I E. injection E as <-. cbn [In] in I. repeat destruct I as [<-|I]; reflexivity || destruct I.
  - exists $"Linux". split; [reflexivity|]. split; [discriminate|apply semicolon_check; reflexivity].
Qed.
Example c150_case :
  ready release_env (case_args false $"/llvm") (fs_of release_files) (touched release_env (case_args false $"/llvm") [$"oclint"; $"build"]) [$"oclint"; $"build"]
  /\ ready release_env (case_args true $"/llvm") (fs_of release_files) (touched release_env (case_args true $"/llvm") [$"oclint"; $"build"]) [$"oclint"; $"build"]
  /\ plain_system release_env /\ unlinked (fs_of release_files) (names (e_root release_env))
  /\ rules_built compile $".so" (e_root release_env) (fs_of release_files) [rule_more]
  /\ reporters_built compile $".so" (e_root release_env) (fs_of release_files) [reporter_more]
  /\ driver_built compile $".so" (e_root release_env) (fs_of release_files) false
  /\ (forall ar, fst (bundle release_env (case_args ar $"/llvm") (start (fs_of release_files) [$"oclint"])) = Val tt)
  /\ m_fs (snd (bundle release_env (case_args false $"/llvm") (start (fs_of release_files) [$"oclint"])))
       [$"oclint"; $"build"; $"oclint-release"; $"lib"; $"oclint"; $"rules"; $"libMyFirstRule.so"] = Some (Regular true $"/oclint/oclint-rules/rules/my_rules/MyFirstRule.cpp").
Proof.
  split; [apply release_ready|]. split; [apply release_ready|].
  split. { repeat split; intros I; repeat (destruct I as [I|I]; [discriminate I|]); contradiction I. }
  split. { apply table_unlinked; [vm_compute; reflexivity|]. intros [I|[]]; discriminate I. }
  split.
  { assert (B : buildable rule_more) by (apply asked_buildable; (reflexivity || discriminate)).
    apply (rules_built_with compile $".so" $"/oclint" _ _ around linux sample rules_files rules_state).
    - apply linux_machine; [apply semicolon_check; reflexivity|apply semicolon_check; reflexivity|vm_compute; reflexivity].
    - left. reflexivity.
    - exact sample_checkout.
    - exact (one_step [] sample rule_more (h_start _ _) (Forall_nil _) (proj1 B) (proj1 (proj2 B))).
    - constructor; [exact B|constructor].
    - split; [constructor; [intros []|constructor]|]. intros a r [<-|[]] Ir Bu E.
      assert (Z : forallb (fun r => negb (str_eqb (sh_file r) (ra_class_name rule_more ++ $"Rule.cpp"))) shipped_rules = true) by (vm_compute; reflexivity).
      rewrite forallb_forall in Z. specialize (Z _ Ir). rewrite E, str_eqb_refl in Z. discriminate.
    - apply configured_state. vm_compute. reflexivity.
    - apply madeb_made. vm_compute. reflexivity. }
  split.
  { assert (S : sensible_reporter reporter_more) by (apply wanted_sensible; reflexivity).
    apply (reporters_built_with compile $".so" $"/oclint" _ _ around linux reporters_sample reporters_files reporters_state).
    - apply linux_machine; [apply semicolon_check; reflexivity|apply semicolon_check; reflexivity|vm_compute; reflexivity].
    - left. reflexivity.
    - exact reporters_sample_checkout.
    - apply (one_reporter_more [] reporters_sample reporter_more false (k_start _ _) (Forall_nil _) S). vm_compute. reflexivity.
    - constructor; [exact S|constructor].
    - apply configured_state. vm_compute. reflexivity.
    - apply madeb_made. vm_compute. reflexivity. }
  split.
  { apply (driver_built_with compile $".so" $"/oclint" _ _ around linux driver_files driver_state).
    - apply linux_machine; [apply semicolon_check; reflexivity|apply semicolon_check; reflexivity|vm_compute; reflexivity].
    - left. reflexivity.
    - left. reflexivity.
    - intros k v w I E. injection E as <-. cbn [In] in I. repeat destruct I as [<-|I]; reflexivity || destruct I.
    - apply copy_is. vm_compute. reflexivity.
    - apply configured_state. vm_compute. reflexivity.
    - apply madeb_made. vm_compute. reflexivity. }
  split; [intros [|]; vm_compute; reflexivity|]. vm_compute. reflexivity.
Qed.

Print Assumptions c150_rules.
Print Assumptions c150_reporters.
Print Assumptions c150_program.
