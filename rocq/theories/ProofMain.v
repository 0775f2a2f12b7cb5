(** * Proofs: loading and main *)
From Verif Require Import Base BaseFacts ModelResults ModelConfig ModelFilter ModelOptions ModelMain
  SpecResults SpecFilter SpecOptions SpecMain ProofResults ProofConfig ProofFilter ProofOptions.

(** ** What the directories ask for *)

Lemma visible_hidden n : hidden n = false <-> visible n.
Proof.
  destruct n as [|c n]; simpl; unfold visible.
  - split; [intros _ r E; discriminate|auto].
  - rewrite ascii_eqb_neq. split.
    + intros H r [= -> _]. auto.
    + intros H ->. now apply (H n).
Qed.

Definition visible_of (es : list str) : list str := filter (fun n => negb (hidden n)) es.

Lemma visible_of_spec es : sublist_where visible es (visible_of es).
Proof.
  apply filter_sublist_where. intros n. rewrite negb_true_iff. apply visible_hidden.
Qed.

Definition in_dir (d n : str) : str := d ++ "/"%char :: n.

Definition asked_list (w : world) (dirs : list str) : list str :=
  flat_map (fun d => match w_list w d with None => [] | Some es => map (in_dir d) (visible_of es) end)
    dirs.

Lemma asked_list_ok w dirs : asked w dirs (asked_list w dirs).
Proof.
  induction dirs as [|d dirs IH]; simpl; [constructor|].
  destruct (w_list w d) as [es|] eqn:E.
  - eapply asked_readable; eauto. apply visible_of_spec.
  - now apply asked_unreadable.
Qed.

Lemma asked_det w dirs ps : asked w dirs ps -> ps = asked_list w dirs.
Proof.
  induction 1 as [|d ds ps E _ IH|d ds es vs ps E Hv _ IH]; simpl; auto.
  - now rewrite E.
  - rewrite E, <- IH. f_equal. f_equal. eapply sublist_where_det; eauto. apply visible_of_spec.
Qed.

(** ** Loading rules *)

Fixpoint load_paths (w : world) (ps : list str) (s : lstate) : lstate * outcome unit :=
  match ps with
  | [] => (s, Val tt)
  | p :: ps' =>
      match dlopen_rules w p s with
      | None => (s, Exc ($"cannot open dynamic library: " ++ p))
      | Some s' => load_paths w ps' s'
      end
  end.

Lemma load_paths_app w ps qs s :
  load_paths w (ps ++ qs) s =
  match load_paths w ps s with
  | (s', Val _) => load_paths w qs s'
  | r => r
  end.
Proof.
  revert s; induction ps as [|p ps IH]; intros s; simpl.
  - reflexivity.
  - destruct (dlopen_rules w p s); auto.
Qed.

Lemma load_entries_paths w d es s :
  load_entries w d es s = load_paths w (map (in_dir d) (visible_of es)) s.
Proof.
  revert s; induction es as [|n es IH]; intros s; simpl; auto.
  destruct (hidden n); simpl; auto.
  unfold in_dir at 1. simpl. destruct (dlopen_rules w (d ++ "/"%char :: n) s); auto.
Qed.

Lemma consume_paths w dirs s : consumeArgRulesPath w dirs s = load_paths w (asked_list w dirs) s.
Proof.
  revert s; induction dirs as [|d dirs IH]; intros s; simpl; auto.
  unfold dynamicLoadRules. destruct (w_list w d) as [es|]; simpl; auto.
  rewrite load_paths_app, load_entries_paths. destruct (load_paths _ _ s) as [s' [[]| |]]; auto.
Qed.

Lemma in_split_first (x : str) l : In x l -> exists a b, l = a ++ x :: b /\ ~ In x a.
Proof.
  induction l as [|y l IH]; [intros []|]. intros H.
  destruct (str_eq_dec y x) as [->|Hn].
  - exists [], l. auto.
  - destruct H as [->|H]; [congruence|]. destruct (IH H) as (a & b & -> & Ha).
    exists (y :: a), b. split; auto. intros [->|Hx]; auto.
Qed.

Lemma one_copy_snoc_old (ps m : list str) p :
  one_copy_each ps m -> In p ps -> one_copy_each (ps ++ [p]) m.
Proof.
  intros (N & M & O) Hp. split; [auto|]. split.
  - intros x. rewrite in_app_iff, M. simpl. split; [auto|]. intros [H|[<-|[]]]; auto.
  - intros a x b y c E. destruct (O a x b y c E) as (a' & b' & -> & H1 & H2).
    exists a', (b' ++ [p]). rewrite <- app_assoc. auto.
Qed.

Lemma one_copy_snoc_new (ps m : list str) p :
  one_copy_each ps m -> ~ In p ps -> one_copy_each (ps ++ [p]) (m ++ [p]).
Proof.
  intros (N & M & O) Hp. split; [|split].
  - apply NoDup_rev in N. rewrite <- (rev_involutive (m ++ [p])), rev_app_distr. apply NoDup_rev.
    simpl. constructor; auto. rewrite <- in_rev, M. auto.
  - intros x. rewrite !in_app_iff, M. tauto.
  - intros a x b y c E. destruct c as [|z c] using rev_ind.
    + replace (a ++ x :: b ++ [y]) with ((a ++ x :: b) ++ [y]) in E
        by (now rewrite <- app_assoc).
      apply app_inj_tail in E as [E <-].
      assert (Hx : In x ps) by (apply M; rewrite E; apply in_elt).
      apply in_split_first in Hx as (a' & b' & -> & Ha).
      exists a', (b' ++ [p]). rewrite <- app_assoc. repeat split; auto.
      intros H. apply Hp. apply in_app_iff. auto.
    + clear IHc. replace (a ++ x :: b ++ y :: c ++ [z]) with ((a ++ x :: b ++ y :: c) ++ [z]) in E
        by (now rewrite <- !app_assoc, <- !app_comm_cons, <- !app_assoc).
      apply app_inj_tail in E as [E _]. destruct (O a x b y c E) as (a' & b' & -> & H1 & H2).
      exists a', (b' ++ [p]). rewrite <- app_assoc. auto.
Qed.

Definition lib_rules (w : world) (p : str) : list nat :=
  match w_rulelib w p with Some rs => rs | None => [] end.

Definition linv (w : world) (done : list str) (s : lstate) : Prop :=
  one_copy_each done (l_mapped s)
  /\ l_rules s = registry (flat_map (lib_rules w) (l_mapped s)).

Lemma registry_app a b :
  registry (a ++ b) = fold_left rs_register (map Some b) (registry a).
Proof. unfold registry. now rewrite map_app, fold_left_app. Qed.

Lemma linv_initial w : linv w [] l_initial.
Proof.
  split; [|reflexivity]. split; [constructor|]. split; [tauto|].
  intros a x b y c E. now destruct a.
Qed.

Lemma dlopen_linv w done s p s' :
  linv w done s -> dlopen_rules w p s = Some s' -> linv w (done ++ [p]) s'.
Proof.
  intros [O R] H. unfold dlopen_rules in H. destruct (w_rulelib w p) as [rs|] eqn:E; [|discriminate].
  destruct (existsb _ (l_mapped s)) eqn:X; inversion H; subst; clear H.
  - split; auto. apply one_copy_snoc_old; auto. apply existsb_exists in X as (q & Hq & Eq).
    apply str_eqb_eq in Eq as ->. now apply O.
  - split; simpl.
    + apply one_copy_snoc_new; auto. intros Hp. apply O in Hp.
      assert (T : existsb (fun q => str_eqb q p) (l_mapped s) = true).
      { apply existsb_exists. exists p. split; auto. apply str_eqb_refl. }
      congruence.
    + rewrite flat_map_app, registry_app, R. simpl. rewrite app_nil_r. unfold lib_rules at 2.
      now rewrite E.
Qed.

Lemma load_paths_val w ps done s s' :
  linv w done s -> load_paths w ps s = (s', Val tt) ->
  linv w (done ++ ps) s' /\ (forall p, In p ps -> w_rulelib w p <> None).
Proof.
  revert done s; induction ps as [|p ps IH]; intros done s I H; simpl in H.
  - inversion H; subst. rewrite app_nil_r. split; [auto|intros p []].
  - destruct (dlopen_rules w p s) as [s1|] eqn:E; [|discriminate].
    pose proof (dlopen_linv _ _ _ _ _ I E) as I1. destruct (IH _ _ I1 H) as [I2 A].
    rewrite <- app_assoc in I2. split; [exact I2|]. intros q [<-|Hq]; auto.
    unfold dlopen_rules in E. destruct (w_rulelib w p); congruence.
Qed.

Lemma load_paths_total w ps s :
  (forall p, In p ps -> w_rulelib w p <> None) -> exists s', load_paths w ps s = (s', Val tt).
Proof.
  revert s; induction ps as [|p ps IH]; intros s H; simpl; [eauto|].
  assert (Hp : w_rulelib w p <> None) by (apply H; simpl; auto).
  unfold dlopen_rules. destruct (w_rulelib w p); [|congruence].
  apply IH. intros q Hq. apply H. simpl; auto.
Qed.

Lemma load_paths_exc w ps done s s' m :
  linv w done s -> load_paths w ps s = (s', Exc m) ->
  exists pre p post, ps = pre ++ p :: post /\ w_rulelib w p = None
    /\ (forall q, In q pre -> w_rulelib w q <> None)
    /\ m = $"cannot open dynamic library: " ++ p /\ linv w (done ++ pre) s'.
Proof.
  revert done s; induction ps as [|p ps IH]; intros done s I H; simpl in H; [discriminate|].
  destruct (dlopen_rules w p s) as [s1|] eqn:E.
  - pose proof (dlopen_linv _ _ _ _ _ I E) as I1.
    destruct (IH _ _ I1 H) as (pre & q & post & -> & Hq & Ho & -> & I2).
    exists (p :: pre), q, post. rewrite <- app_assoc in I2. repeat split; auto; try apply I2.
    intros x [<-|Hx]; auto. unfold dlopen_rules in E. destruct (w_rulelib w p); congruence.
  - inversion H; subst. exists [], p, ps. rewrite app_nil_r. repeat split; auto; try apply I.
    unfold dlopen_rules in E. destruct (w_rulelib w p); congruence.
Qed.

Lemma load_paths_not_ub w ps s s' : load_paths w ps s <> (s', UB).
Proof.
  revert s; induction ps as [|p ps IH]; intros s; simpl; [congruence|].
  destruct (dlopen_rules w p s); auto. congruence.
Qed.

(** ** Reporter selection *)

Fixpoint find_paths (w : world) (type : str) (ps opened : list str)
  : list str * outcome (option reporter) :=
  match ps with
  | [] => (opened, Val None)
  | p :: ps' =>
      match w_replib w p with
      | None => (opened, Exc ($"cannot open dynamic library: " ++ p))
      | Some None => (opened ++ [p], UB)
      | Some (Some r) => if str_eqb (rp_name r) type then (opened ++ [p], Val (Some r))
                         else find_paths w type ps' (opened ++ [p])
      end
  end.

Lemma find_reporter_paths w dir type es opened :
  find_reporter w dir type es opened = find_paths w type (map (in_dir dir) (visible_of es)) opened.
Proof.
  revert opened; induction es as [|n es IH]; intros opened; simpl; auto.
  destruct (hidden n); simpl; auto. unfold in_dir at 1. simpl.
  destruct (w_replib w (dir ++ "/"%char :: n)) as [[r|]|]; auto.
  destruct (str_eqb (rp_name r) type); auto.
Qed.

Lemma find_paths_picks w type ps opened r :
  snd (find_paths w type ps opened) = Val (Some r) <-> picks w type ps r.
Proof.
  revert opened; induction ps as [|p ps IH]; intros opened; simpl.
  - split; [discriminate|inversion 1].
  - destruct (w_replib w p) as [[r'|]|] eqn:E.
    + destruct (str_eqb (rp_name r') type) eqn:T.
      * apply str_eqb_eq in T. split.
        -- intros [= <-]. now apply picks_here.
        -- inversion 1; subst; simpl; congruence.
      * apply str_eqb_neq in T. rewrite IH. split.
        -- intros H. eapply picks_later; eauto.
        -- inversion 1; subst; congruence.
    + split; [discriminate|inversion 1; congruence].
    + split; [discriminate|inversion 1; congruence].
Qed.

Lemma picks_det w type ps r1 r2 : picks w type ps r1 -> picks w type ps r2 -> r1 = r2.
Proof.
  intros H1 H2. apply (find_paths_picks w type ps []) in H1, H2. congruence.
Qed.

Lemma reporter_found_at w s r : reporter_found w s r <->
  exists es vs, w_list w (reporterPath (w_env w)) = Some es /\ sublist_where visible es vs
    /\ picks w (reportType s) (map (fun n => reporterPath (w_env w) ++ "/"%char :: n) vs) r.
Proof.
  assert (E : forall e, en_bin e ++ $"/../lib/oclint/reporters" = reporterPath e).
  { intros e. unfold reporterPath, libPath, installPrefix. rewrite <- !app_assoc. reflexivity. }
  assert (M : forall e vs, map (fun n => en_bin e ++ $"/../lib/oclint/reporters/" ++ n) vs
                           = map (fun n => reporterPath e ++ "/"%char :: n) vs).
  { intros e vs. apply map_ext. intros n. rewrite <- E, <- app_assoc. reflexivity. }
  unfold reporter_found. rewrite E. split; intros (es & vs & A & B & C); exists es, vs; rewrite M in *; auto.
Qed.
Lemma loadReporter_found w s r :
  snd (loadReporter w (reporterPath (w_env w)) (reportType s)) = Val r <-> reporter_found w s r.
Proof.
  rewrite reporter_found_at. unfold loadReporter. cbn [snd].
  destruct (w_list w (reporterPath (w_env w))) as [es|] eqn:E; cbn [snd obind].
  - rewrite find_reporter_paths. split.
    + intros H. exists es, (visible_of es). split; [reflexivity|]. split; [apply visible_of_spec|].
      apply (find_paths_picks w _ _ []). unfold in_dir in H.
      destruct (snd _) as [[x|]| |]; simpl in H; congruence.
    + intros (es' & vs & [= <-] & Hv & P).
      rewrite <- (sublist_where_det _ _ _ _ Hv (visible_of_spec es)).
      apply (find_paths_picks w _ _ []) in P.
      change (snd (find_paths w (reportType s) (map (in_dir (reporterPath (w_env w))) vs) [])
              = Val (Some r)) in P.
      rewrite P. reflexivity.
  - split; [discriminate|]. intros (es & vs & H & _). discriminate.
Qed.

(** ** The result object during reporting *)

Definition consistent (w : world) (dup : bool) (c : collector) (r : results) : Prop :=
  match r with
  | RawR => dup = true
  | UniqueR u => dup = false /\
      forall q, cached q u = [] \/ cached q u = removeViolationDuplications (w_hash w) (collected q c)
  end.

Lemma collected_same q c : collected q c = collected_list q c.
Proof. destruct q; reflexivity. Qed.

Lemma getResults_consistent w dup c : consistent w dup c (getResults dup).
Proof. destruct dup; simpl; auto. split; auto. intros []; auto. Qed.

Lemma ask_consistent w dup c r q :
  consistent w dup c r ->
  shows dup c q (fst (ask (w_hash w) c r q)) /\ consistent w dup c (snd (ask (w_hash w) c r q)).
Proof.
  destruct r as [|u].
  - intros ->. rewrite ask_raw. simpl. split; auto.
  - unfold consistent at 1. intros [-> H]. destruct (cached q u) as [|v l] eqn:E.
    + rewrite ask_unique_empty by auto. cbn [fst snd]. split.
      * unfold shows. rewrite <- collected_same. apply dedup_one_copy_each.
      * split; [reflexivity|]. intros q'.
        assert (D : q = q' \/ q <> q') by (destruct q, q'; auto; right; discriminate).
        destruct D as [<-|D].
        -- rewrite cached_set_same. auto.
        -- rewrite cached_set_other by auto. auto.
    + rewrite ask_unique_full by (rewrite E; discriminate). cbn [fst snd]. split.
      * destruct (H q) as [H1|H1]; [congruence|]. rewrite H1. unfold shows.
        rewrite <- collected_same. apply dedup_one_copy_each.
      * split; [reflexivity|exact H].
Qed.

Lemma shows_det dup c q l1 l2 : shows dup c q l1 -> shows dup c q l2 -> l1 = l2.
Proof.
  destruct dup; simpl; [congruence|]. apply one_copy_each_unique.
Qed.

Lemma shows_total dup c q : exists l, shows dup c q l.
Proof.
  destruct dup; simpl; [eauto|].
  exists (removeViolationDuplications (fun _ => 0%Z) (collected_list q c)).
  apply dedup_one_copy_each.
Qed.

Lemma run_reporting_session w dup c p r o r' :
  consistent w dup c r -> run_reporting w c r p = (o, r') ->
  session (shows dup c) p o /\ consistent w dup c r'.
Proof.
  revert r; induction p as [o0|q k IH]; intros r Hc H; simpl in H.
  - inversion H; subst. split; auto. constructor.
  - destruct (ask (w_hash w) c r q) as [l r1] eqn:E.
    destruct (ask_consistent w dup c r q Hc) as [S1 C1]. rewrite E in S1, C1. simpl in S1, C1.
    destruct (IH l r1 C1 H). split; auto. econstructor; eauto.
Qed.

Lemma session_det dup c p o1 o2 :
  session (shows dup c) p o1 -> session (shows dup c) p o2 -> o1 = o2.
Proof.
  intros H; revert o2. induction H as [o|q k l o A S IH]; intros o2 H2.
  - now inversion H2.
  - inversion H2 as [|q' k' l' o' A' S']; subst. apply IH. now rewrite (shows_det _ _ _ _ _ A A').
Qed.

(** ** Limits *)

Definition ruled (l : list violation) : Prop := Forall (fun v => v_rule v <> None) l.
Lemma ruled_dec l : {ruled l} + {exists v, In v l /\ v_rule v = None}.
Proof.
  induction l as [|v l IH]; [left; constructor|].
  destruct (v_rule v) eqn:E.
  - destruct IH as [H|H]; [left; constructor; auto; congruence|].
    right. destruct H as (x & Hx & Hn). exists x. simpl; auto.
  - right. exists v. simpl; auto.
Qed.

Lemma ruled_excl l : ruled l -> (exists v, In v l /\ v_rule v = None) -> False.
Proof. unfold ruled. rewrite Forall_forall. intros H (v & Hv & Hn). now apply (H v). Qed.

Lemma priority_exceeds_eq w dup c r p limit l :
  consistent w dup c r -> shows dup c QViolations l ->
  fst (priority_exceeds w c r p limit) =
    (if ruled_dec l then Val (limit <? count_priority w p l)%Z else UB)
  /\ consistent w dup c (snd (priority_exceeds w c r p limit)).
Proof.
  intros Hc Hl. unfold priority_exceeds.
  destruct (ask_consistent w dup c r QViolations Hc) as [S1 C1].
  destruct (ask (w_hash w) c r QViolations) as [l' r']. cbn [fst snd] in *.
  rewrite (shows_det _ _ _ _ _ S1 Hl). split; auto.
  destruct (ruled_dec l) as [H|H].
  - now rewrite (c04_val _ _ p H).
  - now rewrite (c04_ub _ _ p H).
Qed.

Lemma exceed_eq w dup s c r l :
  consistent w dup c r -> shows dup c QViolations l ->
  fst (numberOfViolationsExceedThreshold w s c r) =
    (if ruled_dec l then
       Val ((maxP1 s <? count_priority w 1 l)%Z || (maxP2 s <? count_priority w 2 l)%Z
            || (maxP3 s <? count_priority w 3 l)%Z)
     else UB)
  /\ consistent w dup c (snd (numberOfViolationsExceedThreshold w s c r)).
Proof.
  intros Hc Hl. unfold numberOfViolationsExceedThreshold.
  destruct (priority_exceeds_eq w dup c r 1 (maxP1 s) l Hc Hl) as [E1 C1].
  destruct (priority_exceeds w c r 1 (maxP1 s)) as [o1 r1]. cbn [fst snd] in *. subst o1.
  destruct (ruled_dec l) as [Hr|Hr]; [|auto].
  destruct (maxP1 s <? count_priority w 1 l)%Z; [auto|].
  destruct (priority_exceeds_eq w dup c r1 2 (maxP2 s) l C1 Hl) as [E2 C2].
  destruct (priority_exceeds w c r1 2 (maxP2 s)) as [o2 r2]. cbn [fst snd] in *. subst o2.
  destruct (ruled_dec l) as [Hr2|Hr2]; [|destruct (ruled_excl l Hr Hr2)].
  destruct (maxP2 s <? count_priority w 2 l)%Z; [auto|].
  destruct (priority_exceeds_eq w dup c r2 3 (maxP3 s) l C2 Hl) as [E3 C3].
  destruct (ruled_dec l) as [Hr3|Hr3]; [auto|destruct (ruled_excl l Hr Hr3)].
Qed.

Lemma print_exceed_eq w dup s c r l :
  consistent w dup c r -> shows dup c QViolations l -> ruled l ->
  printViolationsExceedThresholdError w s c r =
  ([errorLine $"violations exceed threshold";
    exceedMessage (count_priority w 1 l) (count_priority w 2 l) (count_priority w 3 l) s], Val tt).
Proof.
  intros Hc Hl Hr. unfold printViolationsExceedThresholdError.
  destruct (ask_consistent w dup c r QViolations Hc) as [S1 C1].
  destruct (ask (w_hash w) c r QViolations) as [l1 r1]. cbn [fst snd] in *.
  destruct (ask_consistent w dup c r1 QViolations C1) as [S2 C2].
  destruct (ask (w_hash w) c r1 QViolations) as [l2 r2]. cbn [fst snd] in *.
  destruct (ask_consistent w dup c r2 QViolations C2) as [S3 C3].
  destruct (ask (w_hash w) c r2 QViolations) as [l3 r3]. cbn [fst snd] in *.
  rewrite (shows_det _ _ _ _ _ S1 Hl), (shows_det _ _ _ _ _ S2 Hl), (shows_det _ _ _ _ _ S3 Hl).
  now rewrite !(c04_val _ _ _ Hr).
Qed.

Lemma within_limits_eq w s c l :
  shows (allowDuplicatedViolations s) c QViolations l ->
  (within_limits w s c <->
   ((maxP1 s <? count_priority w 1 l)%Z || (maxP2 s <? count_priority w 2 l)%Z
            || (maxP3 s <? count_priority w 3 l)%Z) = false).
Proof.
  intros Hl. rewrite !orb_false_iff, !Z.ltb_ge. unfold within_limits. split.
  - intros H. specialize (H l Hl). tauto.
  - intros H l' Hl'. rewrite (shows_det _ _ _ _ _ Hl' Hl). tauto.
Qed.

Lemma no_error_shown dup c l :
  shows dup c QErrors l -> (hasList l = false <-> c_errors c = []).
Proof.
  intros H. assert (E : l = [] <-> c_errors c = []).
  { destruct dup; simpl in H.
    - now subst.
    - destruct H as (_ & M & _). cbn [collected_list] in M. split; intros E.
      + destruct (c_errors c) as [|v e]; auto. subst l. exfalso. apply (M v). simpl; auto.
      + destruct l as [|v l]; auto. rewrite E in M. exfalso. apply (M v). simpl; auto. }
  rewrite <- E. unfold hasList, numberOfList. destruct l; cbn [length]; split; intros X; try congruence; try reflexivity.
  apply Z.ltb_ge in X. lia.
Qed.

(** ** The stages of main *)

Lemma rules_loaded_intro w s ls :
  consumeArgRulesPath w (rulesPath (w_env w) s) l_initial = (ls, Val tt) ->
  exists rules, l_rules ls = registry rules
    /\ registered_by w (asked_list w (rulesPath (w_env w) s)) rules
    /\ (forall p, In p (asked_list w (rulesPath (w_env w) s)) -> w_rulelib w p <> None).
Proof.
  rewrite consume_paths. intros H.
  destruct (load_paths_val _ _ [] _ _ (linv_initial w) H) as [[I1 I2] A]. simpl in I1.
  exists (flat_map (lib_rules w) (l_mapped ls)). split; auto. split; auto.
  exists (l_mapped ls). auto.
Qed.

Lemma registered_det w ps r1 r2 : registered_by w ps r1 -> registered_by w ps r2 -> r1 = r2.
Proof.
  intros (o1 & H1 & ->) (o2 & H2 & ->). now rewrite (one_copy_each_unique _ _ _ H1 H2).
Qed.

Lemma registry_number rules : numberOfRules (registry rules) = Z.of_nat (length rules).
Proof.
  rewrite registry_eq. destruct rules; auto. unfold numberOfRules. now rewrite map_length.
Qed.

Lemma rules_loaded_det w s r1 r2 : rules_loaded w s r1 -> rules_loaded w s r2 -> r1 = r2.
Proof.
  intros (p1 & A1 & _ & R1 & _) (p2 & A2 & _ & R2 & _).
  apply asked_det in A1, A2. subst. eapply registered_det; eauto.
Qed.

Lemma options_are_det w s1 s2 : options_are w s1 -> options_are w s2 -> s1 = s2.
Proof. intros (c1 & H1 & E1) (c2 & H2 & E2). congruence. Qed.

Lemma reporter_found_det w s r1 r2 : reporter_found w s r1 -> reporter_found w s r2 -> r1 = r2.
Proof. intros H1 H2. apply loadReporter_found in H1, H2. congruence. Qed.

Lemma analysed_det w s rules c1 c2 : analysed w s rules c1 -> analysed w s rules c2 -> c1 = c2.
Proof. intros (x & H1 & E1) (y & H2 & E2). congruence. Qed.

Lemma exits_det w n m : exits w n -> exits w m -> n = m.
Proof.
  intros H1 H2; destruct H1; destruct H2; auto;
  repeat match goal with
  | [ A : options_are ?w ?a, B : options_are ?w ?b |- _ ] =>
      assert_fails (constr_eq a b); pose proof (options_are_det w a b A B); subst b
  | [ A : w_cmdline ?w = None, B : options_are ?w _ |- _ ] =>
      exfalso; destruct B as (? & ? & _); congruence
  | [ A : rules_loaded ?w ?s ?a, B : rules_loaded ?w ?s ?b |- _ ] =>
      assert_fails (constr_eq a b); pose proof (rules_loaded_det w s a b A B); subst b
  | [ A : reporter_found ?w ?s ?a, B : reporter_found ?w ?s ?b |- _ ] =>
      assert_fails (constr_eq a b); pose proof (reporter_found_det w s a b A B); subst b
  | [ A : analysed ?w ?s ?r ?a, B : analysed ?w ?s ?r ?b |- _ ] =>
      assert_fails (constr_eq a b); pose proof (analysed_det w s r a b A B); subst b
  end; exfalso;
  match goal with
  | [ A : forall x, ~ ?P x, B : ?P _ |- _ ] => exact (A _ B)
  | [ A : forall x, ~ rules_loaded _ _ x, B : rules_loaded _ _ _ |- _ ] => exact (A _ B)
  | [ A : forall x, ~ reporter_found _ _ x, B : reporter_found _ _ _ |- _ ] => exact (A _ B)
  | [ A : forall x, ~ analysed _ _ _ x, B : analysed _ _ _ _ |- _ ] => exact (A _ B)
  | [ A : forall x, ~ reported _ _ _ _ x, B : reported _ _ _ _ _ |- _ ] => exact (A _ B)
  | _ => tauto
  end.
Qed.

Lemma hasOutputPath_true s : hasOutputPath s = true <-> o_value (argOutput s) <> $"-".
Proof.
  unfold hasOutputPath. rewrite negb_true_iff. apply str_eqb_neq.
Qed.
Lemma hasOutputPath_false s : hasOutputPath s = false <-> o_value (argOutput s) = $"-".
Proof.
  unfold hasOutputPath. rewrite negb_false_iff. apply str_eqb_eq.
Qed.

(** The report stage. *)
Lemma report_stage_ok w s c rep ev r :
  report_stage w s c (getResults (allowDuplicatedViolations s)) rep = (ev, inr r) ->
  exists text, reported w s rep c text /\ (exists e, ev = [e] /\ report_event w s text e)
    /\ consistent w (allowDuplicatedViolations s) c r.
Proof.
  unfold report_stage. intros H.
  destruct (hasOutputPath s) eqn:O; cbn [negb] in H.
  - apply hasOutputPath_true in O.
    destruct (outputPath (w_env w) s) as [path|m|] eqn:P; try discriminate.
    destruct (w_canOpen w path) eqn:C; cbn [negb] in H; try discriminate.
    destruct (run_reporting _ _ _ _) as [[text|m|] r'] eqn:R; try discriminate.
    inversion H; subst.
    destruct (run_reporting_session _ _ _ _ _ _ _ (getResults_consistent w _ c) R) as [S1 C1].
    exists text. split; [|split; auto].
    + split; auto. right. eauto.
    + eexists. split; [reflexivity|]. right. eauto.
  - apply hasOutputPath_false in O.
    destruct (run_reporting _ _ _ _) as [[text|m|] r'] eqn:R; try discriminate.
    inversion H; subst.
    destruct (run_reporting_session _ _ _ _ _ _ _ (getResults_consistent w _ c) R) as [S1 C1].
    exists text. split; [|split; auto].
    + split; auto.
    + eexists. split; [reflexivity|]. left. auto.
Qed.

Lemma report_stage_fail w s c rep ev n :
  report_stage w s c (getResults (allowDuplicatedViolations s)) rep = (ev, inl (Exit n)) ->
  n = 4%Z /\ (forall text, ~ reported w s rep c text)
  /\ (exists pre m, ev = pre ++ [errorLine m] /\ (pre = [] \/ exists p, pre = [EFile p []])).
Proof.
  unfold report_stage. intros H.
  destruct (hasOutputPath s) eqn:O; cbn [negb] in H.
  - apply hasOutputPath_true in O.
    destruct (outputPath (w_env w) s) as [path|m|] eqn:P; try discriminate.
    + destruct (w_canOpen w path) eqn:C; cbn [negb] in H.
      * destruct (run_reporting _ _ _ _) as [[text|m|] r'] eqn:R; try discriminate.
        inversion H; subst. split; auto.
        destruct (run_reporting_session _ _ _ _ _ _ _ (getResults_consistent w _ c) R) as [S1 _].
        split.
        -- intros text [S2 _]. pose proof (session_det _ _ _ _ _ S1 S2). discriminate.
        -- exists [EFile path []], m. split; auto. right. eauto.
      * inversion H; subst. split; auto. split.
        -- intros text [_ [D|(p & D1 & D2)]]; congruence.
        -- eexists [], _. split; [reflexivity|]. auto.
    + inversion H; subst. split; auto. split.
      * intros text [_ [D|(p & D1 & D2)]]; congruence.
      * eexists [], _. split; [reflexivity|]. auto.
  - apply hasOutputPath_false in O.
    destruct (run_reporting _ _ _ _) as [[text|m|] r'] eqn:R; try discriminate.
    inversion H; subst. split; auto.
    destruct (run_reporting_session _ _ _ _ _ _ _ (getResults_consistent w _ c) R) as [S1 _].
    split.
    + intros text [S2 _]. pose proof (session_det _ _ _ _ _ S1 S2). discriminate.
    + eexists [], _. split; [reflexivity|]. auto.
Qed.

Lemma handleExit_eq w s c r ev n :
  consistent w (allowDuplicatedViolations s) c r ->
  handleExit w s c r = (ev, Exit n) ->
  ((n = 6%Z /\ ~ no_compile_error c)
   \/ (n = 5%Z /\ no_compile_error c /\ ~ within_limits w s c)
   \/ (n = 0%Z /\ no_compile_error c /\ within_limits w s c))
  /\ said_last w s c n ev.
Proof.
  intros Hc. unfold handleExit.
  destruct (ask_consistent w _ c r QErrors Hc) as [S1 C1].
  destruct (ask (w_hash w) c r QErrors) as [errs r1]. cbn [fst snd] in *.
  pose proof (no_error_shown _ _ _ S1) as NE. unfold no_compile_error.
  destruct (hasList errs).
  - intros [= <- <-]. split; [|left; split; [discriminate|reflexivity]]. left. split; auto. intros H. apply NE in H. discriminate.
  - assert (E0 : c_errors c = []) by now apply NE.
    destruct (shows_total (allowDuplicatedViolations s) c QViolations) as [l Hl].
    destruct (exceed_eq w _ s c r1 l C1 Hl) as [E C2].
    destruct (numberOfViolationsExceedThreshold w s c r1) as [o r2]. cbn [fst snd] in *. subst o.
    pose proof (within_limits_eq w s c l Hl) as WL.
    destruct (ruled_dec l) as [Hr|Hr].
    + destruct ((maxP1 s <? count_priority w 1 l)%Z || (maxP2 s <? count_priority w 2 l)%Z
            || (maxP3 s <? count_priority w 3 l)%Z) eqn:X.
      * rewrite (print_exceed_eq w _ s c r2 l C2 Hl Hr). intros [= <- <-]. split.
        -- right. left. split; [reflexivity|]. split; [exact E0|]. rewrite WL. discriminate.
        -- right. split; [reflexivity|]. exists l. split; [exact Hl|]. unfold exceedMessage, counts_event. cbn [fst snd]. rewrite <- ?app_assoc. reflexivity.
      * intros [= <- <-]. split; [|left; split; [discriminate|reflexivity]]. right. right.
        split; [reflexivity|]. split; [exact E0|]. now apply WL.
    + discriminate.
Qed.

(** The preparation. *)
Lemma prepare_ok w s ev ls rep :
  prepare w s = (ev, ls, inr rep) ->
  ev = [] /\ reporter_found w s rep /\
  exists rules, rules_loaded w s rules /\ l_rules ls = registry rules.
Proof.
  unfold prepare.
  destruct (consumeArgRulesPath w (rulesPath (w_env w) s) l_initial) as [ls' [[]|m|]] eqn:E;
    try discriminate.
  destruct (rules_loaded_intro _ _ _ E) as (rules & Hr & Hreg & Hall). rewrite Hr, registry_number.
  destruct (Z.of_nat (length rules) <=? 0)%Z eqn:Z0; [discriminate|]. apply Z.leb_gt in Z0.
  destruct (snd (loadReporter _ _ _)) as [r|m|] eqn:L; try discriminate.
  intros [= <- <- <-]. split; auto. split; [now apply loadReporter_found|].
  exists rules. split; auto. exists (asked_list w (rulesPath (w_env w) s)).
  split; [apply asked_list_ok|]. repeat split; auto. intros ->. simpl in Z0. lia.
Qed.

Lemma prepare_fail w s ev ls n :
  prepare w s = (ev, ls, inl (Exit n)) ->
  (exists m, ev = [error_event m]) /\
  ((n = 1%Z /\ forall rules, ~ rules_loaded w s rules)
   \/ (n = 2%Z /\ (exists rules, rules_loaded w s rules) /\ forall r, ~ reporter_found w s r)).
Proof.
  unfold prepare.
  destruct (consumeArgRulesPath w (rulesPath (w_env w) s) l_initial) as [ls' [[]|m|]] eqn:E;
    try discriminate.
  - destruct (rules_loaded_intro _ _ _ E) as (rules & Hr & Hreg & Hall). rewrite Hr, registry_number.
    destruct (Z.of_nat (length rules) <=? 0)%Z eqn:Z0.
    + apply Z.leb_le in Z0. intros [= <- <- <-]. split.
      { eexists; reflexivity. }
      left. split; auto.
      intros r2 (ps & A & _ & R & Hne). apply asked_det in A as ->.
      rewrite (registered_det _ _ _ _ R Hreg) in Hne. destruct rules; [congruence|]. cbn [length] in Z0. lia.
    + apply Z.leb_gt in Z0.
      destruct (snd (loadReporter _ _ _)) as [r|m|] eqn:L; try discriminate.
      intros [= <- <- <-]. split.
      { eexists; reflexivity. }
      right. split; auto. split.
      * exists rules, (asked_list w (rulesPath (w_env w) s)).
        split; [apply asked_list_ok|]. repeat split; auto. intros ->. simpl in Z0. lia.
      * intros r Hf. apply loadReporter_found in Hf. congruence.
  - intros [= <- <- <-]. split.
    { eexists; reflexivity. }
    left. split; auto. intros rules (ps & A & Hall & _).
    apply asked_det in A as ->. rewrite consume_paths in E.
    destruct (load_paths_exc _ _ [] _ _ _ (linv_initial w) E) as (pre & p & post & E2 & Hp & _).
    apply (Hall p); auto. rewrite E2. apply in_elt.
Qed.

Lemma listing_eq w sel :
  (if w_listRules w then [listRules (map (fun a => ri_identifier (w_rules w a)) sel)] else []) = listing w sel.
Proof.
  unfold listing, listRules. destruct (w_listRules w); [|reflexivity]. rewrite flat_map_concat_map, map_map. reflexivity.
Qed.
Lemma main_exit w ev n : main w = (ev, Exit n) -> exits w n /\ trace w n ev.
Proof.
  unfold main.
  destruct (w_cmdline w) as [cl|] eqn:CL; [|intros [= <- <-]; split; [now constructor|]].
  2:{ apply t_options. }
  destruct (process (w_read w) (w_yaml w) (w_env w) cl) as [s|m|] eqn:P; try discriminate.
  assert (Ho : options_are w s) by (exists cl; auto).
  destruct (prepare w s) as [[ev0 ls] [e|rep]] eqn:PR.
  - intros [= <- ->]. destruct (prepare_fail _ _ _ _ _ PR) as ((m & ->) & [[-> H]|(-> & (rules & H1) & H2)]).
    + split; [eapply x_rules; eauto | apply t_early; auto].
    + split; [eapply x_reporter; eauto | apply t_early; auto].
  - destruct (prepare_ok _ _ _ _ _ PR) as (-> & Hrep & rules & Hrules & Els). rewrite Els.
    destruct (filteredRules (w_rules w) (os_filter s) (registry rules)) as [sel|m|] eqn:F;
      try discriminate.
    cbn [app]. rewrite listing_eq. destruct (w_driver w sel) as [c o] eqn:D.
    destruct o as [[]|m|]; try discriminate.
    + assert (Ha : analysed w s rules c) by (exists sel; auto).
      destruct (report_stage w s c (getResults (allowDuplicatedViolations s)) rep) as [ev2 [e|r]] eqn:R.
      * intros [= <- ->]. destruct (report_stage_fail _ _ _ _ _ _ R) as (-> & Hn & pre & m & -> & Hp).
        split; [eapply x_reporting; eauto|]. rewrite <- app_assoc. cbn [app]. now apply t_reporting.
      * destruct (report_stage_ok _ _ _ _ _ _ R) as (text & Ht & (e2 & -> & He2) & Hc).
        destruct (handleExit w s c r) as [ev3 e3] eqn:H. intros [= <- ->].
        destruct (handleExit_eq _ _ _ _ _ _ Hc H) as [Hcode Herr].
        split.
        -- destruct Hcode as [[-> H1]|[(-> & H1 & H2)|(-> & H1 & H2)]].
           ++ eapply x_errors; eauto.
           ++ eapply x_limits; eauto.
           ++ eapply x_success; eauto.
        -- rewrite <- app_assoc. cbn [app]. eapply t_done; eauto.
           destruct Hcode as [[-> H1]|[(-> & H1 & H2)|(-> & H1 & H2)]]; auto.
    + intros [= <- <-]. split.
      * eapply x_processing; eauto. intros c' (sel' & H1 & H2). congruence.
      * rewrite <- app_assoc. apply t_analysis.
Qed.

(** When nothing undefined happens, main returns an exit code. *)
Lemma find_paths_not_ub w type ps opened :
  (forall p, In p ps -> w_replib w p <> Some None) -> snd (find_paths w type ps opened) <> UB.
Proof.
  revert opened; induction ps as [|p ps IH]; intros opened H; simpl; [discriminate|].
  assert (Hp : w_replib w p <> Some None) by (apply H; simpl; auto).
  destruct (w_replib w p) as [[r|]|]; try discriminate; [|congruence].
  destruct (str_eqb (rp_name r) type); [discriminate|]. apply IH. intros q Hq. apply H. simpl; auto.
Qed.

Lemma picks_in w type ps r : picks w type ps r -> exists p, w_replib w p = Some (Some r).
Proof. induction 1; eauto. Qed.

Lemma shown_ruled dup c l :
  (forall v, In v (concat (c_collection c)) -> v_rule v <> None) ->
  shows dup c QViolations l -> ruled l.
Proof.
  intros H Hl. unfold ruled. rewrite Forall_forall. intros v Hv. apply H.
  destruct dup; simpl in Hl; [now subst|]. now apply Hl.
Qed.

(** The hypotheses may be restricted to what the process runs into. *)
Lemma main_returns_sel w :
  (forall cl, w_cmdline w = Some cl -> Forall (fun a => (Z.of_nat (length a) <= INT_MAX)%Z) (cl_rc cl)) ->
  (forall p, w_replib w p <> Some None) ->
  (forall s rules sel, options_are w s -> rules_loaded w s rules -> filteredRules (w_rules w) (os_filter s) (registry rules) = Val sel ->
     snd (w_driver w sel) <> UB
     /\ (snd (w_driver w sel) = Val tt -> forall v, In v (concat (c_collection (fst (w_driver w sel)))) -> v_rule v <> None)
     /\ (forall r c, reporter_found w s r -> w_driver w sel = (c, Val tt) -> ~ session (shows (allowDuplicatedViolations s) c) (rp_report r c) UB)) ->
  exists ev n, main w = (ev, Exit n).
Proof.
  intros B1 B2 B. unfold main.
  destruct (w_cmdline w) as [cl|] eqn:CL; [|eauto].
  destruct (process_total (w_read w) (w_yaml w) (w_env w) cl (B1 cl eq_refl)) as [s Ps]. rewrite Ps.
  destruct (prepare w s) as [[ev0 ls] [e|rep]] eqn:PR.
  - unfold prepare in PR.
    destruct (consumeArgRulesPath w (rulesPath (w_env w) s) l_initial) as [ls' [[]|m|]] eqn:E.
    + destruct (numberOfRules (l_rules ls') <=? 0)%Z; [inversion PR; eauto|].
      destruct (snd (loadReporter _ _ _)) as [r|m|] eqn:L; try discriminate; [inversion PR; eauto|].
      exfalso. unfold loadReporter in L. cbn [snd] in L.
      destruct (w_list w (reporterPath (w_env w))) as [es|]; [|discriminate].
      rewrite find_reporter_paths in L.
      destruct (snd (find_paths _ _ _ _)) as [[x|]|x|] eqn:FP; try discriminate.
      eapply find_paths_not_ub; [|exact FP]. intros; apply B2.
    + inversion PR; eauto.
    + exfalso. rewrite consume_paths in E. now apply load_paths_not_ub in E.
  - destruct (prepare_ok _ _ _ _ _ PR) as (-> & Hrep & rules & Hrules & Els). rewrite Els.
    rewrite filteredRules_eq. cbn [app].
    set (sel := filter _ rules).
    assert (Ho : options_are w s) by (exists cl; auto).
    destruct (B s rules sel Ho Hrules (filteredRules_eq _ _ _)) as (B3 & B4 & B5).
    destruct (w_driver w sel) as [c [[]|m|]]; cbn [fst snd] in *; try congruence; [|eauto].
    destruct (report_stage w s c (getResults (allowDuplicatedViolations s)) rep) as [ev2 [e|r]] eqn:R.
    + assert (Hns : forall o r', run_reporting w c (getResults (allowDuplicatedViolations s)) (rp_report rep c) = (o, r') -> o <> UB).
      { intros o r' RR ->.
        destruct (run_reporting_session _ _ _ _ _ _ _ (getResults_consistent w _ c) RR) as [S1 _].
        exact (B5 rep c Hrep eq_refl S1). }
      unfold report_stage in R.
      assert (Hout : outputPath (w_env w) s <> UB).
      { unfold outputPath. destruct (o_value (argOutput s)) as [|a ?]; [discriminate|].
        destruct (ascii_eqb a _); discriminate. }
      destruct (negb (hasOutputPath s)).
      * destruct (run_reporting _ _ _ _) as [[t|m|] r'] eqn:RR; inversion R; subst; eauto.
        exfalso. now apply (Hns _ _ eq_refl).
      * destruct (outputPath (w_env w) s) as [path|m|]; [|inversion R; subst; eauto|congruence].
        destruct (negb (w_canOpen w path)); [inversion R; subst; eauto|].
        destruct (run_reporting _ _ _ _) as [[t|m|] r'] eqn:RR; inversion R; subst; eauto.
        exfalso. now apply (Hns _ _ eq_refl).
    + destruct (report_stage_ok _ _ _ _ _ _ R) as (text & Ht & _ & Hc).
      unfold handleExit.
      destruct (ask_consistent w _ c r QErrors Hc) as [S1 C1].
      destruct (ask (w_hash w) c r QErrors) as [errs r1]. cbn [fst snd] in *.
      destruct (hasList errs); [eauto|].
      destruct (shows_total (allowDuplicatedViolations s) c QViolations) as [l Hl].
      destruct (exceed_eq w _ s c r1 l C1 Hl) as [E C2].
      destruct (numberOfViolationsExceedThreshold w s c r1) as [o r2]. cbn [fst snd] in *. subst o.
      destruct (ruled_dec l) as [Hr|Hr].
      * destruct (_ || _ || _).
        -- rewrite (print_exceed_eq w _ s c r2 l C2 Hl Hr). eauto.
        -- eauto.
      * destruct (ruled_excl l (shown_ruled _ _ _ (B4 eq_refl) Hl) Hr).
Qed.
Lemma main_returns w : well_behaved w -> exists ev n, main w = (ev, Exit n).
Proof.
  intros (B1 & B2 & B3 & B4 & B5). apply main_returns_sel; auto. intros s rules sel _ _ _. refine (conj (B3 sel) (conj (fun _ => B4 sel) _)).
  intros r c (es & vs & _ & _ & PK) _. apply picks_in in PK as [p Hp]. eapply B5; eauto.
Qed.

(** ** Two runs *)

Lemma subseq_trans {A} (a b c : list A) : subseq a b -> subseq b c -> subseq a c.
Proof.
  intros H1 H2; revert a H1. induction H2 as [l|x k l H IH|x k l H IH]; intros a H1.
  - inversion H1. constructor.
  - inversion H1; subst; constructor; auto.
  - constructor; auto.
Qed.

Lemma one_copy_subseq (l r : list violation) : one_copy_each l r -> subseq r l.
Proof.
  intros H. rewrite (one_copy_each_unique _ _ _ H (dedup_one_copy_each (fun _ => 0%Z) l)).
  apply dedup_subseq.
Qed.

Lemma filter_incl_length {A} (f : A -> bool) (k l : list A) :
  NoDup k -> incl k l -> length (filter f k) <= length (filter f l).
Proof.
  intros N I. apply NoDup_incl_length.
  - now apply NoDup_filter.
  - intros x Hx. apply filter_In in Hx as [H1 H2]. apply filter_In. auto.
Qed.

Lemma more_counts w1 w2 d1 d2 c1 c2 l1 l2 p :
  w_rules w1 = w_rules w2 ->
  (d1 = true -> d2 = true) ->
  subseq (concat (c_collection c1)) (concat (c_collection c2)) ->
  shows d1 c1 QViolations l1 -> shows d2 c2 QViolations l2 ->
  (count_priority w1 p l1 <= count_priority w2 p l2)%Z.
Proof.
  intros Hw Hd Hsub H1 H2. unfold count_priority. rewrite Hw. apply inj_le.
  destruct d1; simpl in H1.
  - rewrite (Hd eq_refl) in H2. simpl in H2. subst. now apply subseq_filter_length.
  - simpl collected_list in *. apply filter_incl_length; [apply H1|].
    intros x Hx. apply H1 in Hx. simpl in Hx. apply (subseq_in _ _ _ Hsub) in Hx.
    destruct d2; simpl in H2; [now subst|]. now apply H2.
Qed.

(** ** Options that differ only in the limits *)
Definition same_but_limits (s t : ostate) : Prop :=
  argOutput s = argOutput t /\ argReportType s = argReportType t /\ argRulesPath s = argRulesPath t
  /\ argGlobalAnalysis s = argGlobalAnalysis t /\ argClangChecker s = argClangChecker t
  /\ argDuplications s = argDuplications t /\ os_filter s = os_filter t /\ os_cfg s = os_cfg t.

Lemma same_step s t f : same_but_limits s t -> same_but_limits (processConfigFile s f) (processConfigFile t f).
Proof.
  intros (H1 & H2 & H3 & H4 & H5 & H6 & H7 & H8). unfold same_but_limits, processConfigFile. simpl.
  rewrite H1, H2, H3, H4, H5, H6, H7, H8. tauto.
Qed.

Lemma same_fold files s t :
  same_but_limits s t ->
  same_but_limits (fold_left processConfigFile files s) (fold_left processConfigFile files t).
Proof.
  revert s t; induction files as [|f fs IH]; intros s t H; simpl; auto. apply IH. now apply same_step.
Qed.

Lemma with_limits_process read yaml e cl a b c s :
  process read yaml e (with_limits cl a b c) = Val s ->
  maxP1 s = a /\ maxP2 s = b /\ maxP3 s = c
  /\ forall a' b' c', exists s', process read yaml e (with_limits cl a' b' c') = Val s'
       /\ same_but_limits s s'.
Proof.
  intros H. pose proof (prec_maxP1 _ _ _ _ _ H) as P1. pose proof (prec_maxP2 _ _ _ _ _ H) as P2.
  pose proof (prec_maxP3 _ _ _ _ _ H) as P3. simpl in P1, P2, P3.
  split; [auto|]. split; [auto|]. split; [auto|]. intros a' b' c'.
  unfold process in *. cbv zeta in *. rewrite processConfigFiles_eq in *.
  assert (S : same_but_limits
    (fold_left processConfigFile (config_files read yaml e) (os_initial (with_limits cl a b c)))
    (fold_left processConfigFile (config_files read yaml e) (os_initial (with_limits cl a' b' c')))).
  { apply same_fold. unfold same_but_limits; simpl; tauto. }
  destruct S as (S1 & S2 & S3 & S4 & S5 & S6 & S7 & S8).
  cbn [with_limits cl_rc cl_rule cl_disableRule] in *. rewrite S8 in H.
  destruct (processRuleConfigurations (cl_rc cl) _) as [k| |]; try discriminate.
  cbn [obind] in *. inversion H; subst s. eexists. split; [reflexivity|].
  unfold same_but_limits; simpl. rewrite S7. tauto.
Qed.

Lemma rulesPath_ext e s t : same_but_limits s t -> rulesPath e s = rulesPath e t.
Proof. intros H. unfold rulesPath. destruct H as (_ & _ & -> & _). reflexivity. Qed.
Lemma reportType_ext s t : same_but_limits s t -> reportType s = reportType t.
Proof. intros H. unfold reportType. destruct H as (_ & -> & _). reflexivity. Qed.
Lemma output_ext s t : same_but_limits s t -> argOutput s = argOutput t.
Proof. intros H. apply H. Qed.
Lemma dup_ext s t : same_but_limits s t -> allowDuplicatedViolations s = allowDuplicatedViolations t.
Proof. intros H. unfold allowDuplicatedViolations. destruct H as (_ & _ & _ & _ & _ & -> & _). reflexivity. Qed.

Lemma picks_cmd w cl type ps r : picks w type ps r -> picks (with_cmdline w cl) type ps r.
Proof. induction 1; [now apply picks_here | now apply picks_later with r']. Qed.

Section LimitsOnly.
  Variables (w : world) (cl cl' : cmdline) (s t : ostate).
  Hypothesis Hst : same_but_limits s t.
  Let w1 := with_cmdline w cl.
  Let w2 := with_cmdline w cl'.

  Lemma rules_loaded_cmd rules : rules_loaded w1 s rules -> rules_loaded w2 t rules.
  Proof.
    intros (ps & A & H1 & H2 & H3). apply asked_det in A.
    exists ps. cbn in *. rewrite <- (rulesPath_ext _ _ _ Hst).
    split; [|split; [auto|split; auto]].
    subst ps. exact (asked_list_ok w2 (rulesPath (w_env w) s)).
  Qed.
  Lemma reporter_found_cmd r : reporter_found w1 s r -> reporter_found w2 t r.
  Proof.
    intros (es & vs & H1 & H2 & H3). exists es, vs. cbn in *. rewrite <- (reportType_ext _ _ Hst).
    split; [auto|split; [auto|]]. apply (picks_cmd w1 cl') in H3. exact H3.
  Qed.
  Lemma analysed_cmd rules c : analysed w1 s rules c -> analysed w2 t rules c.
  Proof.
    intros (sel & H1 & H2). exists sel. cbn in *. destruct Hst as (_ & _ & _ & _ & _ & _ & <- & _). auto.
  Qed.
  Lemma reported_cmd r c text : reported w1 s r c text -> reported w2 t r c text.
  Proof.
    intros [H1 H2]. split.
    - rewrite <- (dup_ext _ _ Hst). exact H1.
    - cbn in *. unfold outputPath in *. rewrite <- (output_ext _ _ Hst). exact H2.
  Qed.
End LimitsOnly.

Lemma main_exits_back w n ev : well_behaved w -> exits w n -> main w = (ev, snd (main w)) ->
  snd (main w) = Exit n.
Proof.
  intros B X _. destruct (main_returns w B) as (ev' & m & E). rewrite E. simpl.
  destruct (main_exit _ _ _ E) as [X2 _]. now rewrite (exits_det _ _ _ X X2).
Qed.

Lemma exit_inv_0 w ev n : main w = (ev, Exit n) -> (n = 0 <-> exits w 0)%Z.
Proof.
  intros E. destruct (main_exit _ _ _ E) as [X _]. split.
  - now intros <-.
  - intros X0. exact (exits_det _ _ _ X X0).
Qed.
