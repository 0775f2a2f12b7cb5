(** * Suppressing and whole runs: C130 *)
From Coq Require Import Permutation.
From Verif Require Import Base BaseFacts ModelResults ModelConfig ModelFilter ModelOptions ModelMain ModelDriver
  ModelSource ModelAST ModelRules ModelRulesVars ModelRuleTable ModelProgram
  SpecResults SpecFilter SpecOptions SpecMain SpecAST SpecSource SpecRules SpecDriver SpecProgram SpecCatalogue SpecSuppression SpecSuppressRuns
  ProofFilter ProofSource ProofMain ProofRules ProofProgram PropSource PropRuleTable PropMain PropProgram PropCatalogue PropSuppression.
Local Arguments lit : simpl never.

(** ** Tables that differ in one row *)
Lemma alone_det c k x vs vs' : alone c k x vs -> alone c k x vs' -> vs = vs'.
Proof.
  intros A B. apply alone_iff in A as (? & ? & E & ->), B as (? & ? & E' & ->). rewrite E in E'. now injection E' as -> _.
Qed.
Lemma row_det c x ks : forall r r', Forall2 (fun k vs => alone c k x vs) ks r -> Forall2 (fun k vs => alone c k x vs) ks r' -> r = r'.
Proof.
  induction ks as [|k ks IH]; intros r r' A B; inversion A; inversion B; subst; auto. f_equal; eauto using alone_det.
Qed.
Lemma table_det c ks xs : forall t t', each_alone c ks xs t -> each_alone c ks xs t' -> t = t'.
Proof.
  unfold each_alone. induction xs as [|x xs IH]; intros t t' A B; inversion A; inversion B; subst; auto. f_equal; eauto using row_det.
Qed.
Lemma rows_differ c ks a x x' b t t' : each_alone c ks (a ++ x :: b) t -> each_alone c ks (a ++ x' :: b) t' ->
  exists t1 r r' t2, length t1 = length a /\ t = t1 ++ r :: t2 /\ t' = t1 ++ r' :: t2
    /\ Forall2 (fun k vs => alone c k x vs) ks r /\ Forall2 (fun k vs => alone c k x' vs) ks r'.
Proof.
  unfold each_alone. intros A B. apply Forall2_app_inv_l in A as (t1 & u & A1 & A2 & ->), B as (t1' & u' & B1 & B2 & ->).
  inversion A2 as [|? r ? t2 R A3]; inversion B2 as [|? r' ? t2' R' B3]; subst.
  assert (t1' = t1) as -> by (eapply (table_det c ks a); eauto). assert (t2' = t2) as -> by (eapply (table_det c ks b); eauto).
  exists t1, r, r', t2. repeat split; auto. clear - A1. induction A1; cbn; congruence.
Qed.
Lemma runs_differ i i' s rules c c' a x x' b :
  driver_of i s rules = (c, Val tt) -> driver_of i' s rules = (c', Val tt) -> NoDup rules ->
  compiled i (a ++ x :: b) -> compiled i' (a ++ x' :: b) -> separate (a ++ x :: b) -> separate (a ++ x' :: b) ->
  exists r r', bucket_changed (length a) (c_collection c) (c_collection c') (concat r) (concat r')
    /\ Forall2 (fun k vs => alone (os_cfg s) k x vs) rules r /\ Forall2 (fun k vs => alone (os_cfg s) k x' vs) rules r'.
Proof.
  intros D D' Nd C C' S S'.
  destruct (c112_each_rule_on_its_own _ _ _ _ _ D C Nd S) as (t & T & E), (c112_each_rule_on_its_own _ _ _ _ _ D' C' Nd S') as (t' & T' & E').
  destruct (rows_differ _ _ _ _ _ _ _ _ T T') as (t1 & r & r' & t2 & L & -> & -> & R & R').
  exists r, r'. split; auto. exists (map (@concat violation) t1), (map (@concat violation) t2).
  rewrite E, E', !map_app, map_length. auto.
Qed.
Lemma concat_where {X} (P : X -> Prop) r r' : Forall2 (sublist_where P) r r' -> sublist_where P (concat r) (concat r').
Proof.
  induction 1 as [|l l' r r' S F IH]; cbn [concat]; [constructor|]. induction S; cbn [app]; auto; constructor; auto.
Qed.
Lemma where_taken {X} (P : X -> Prop) l l' : sublist_where P l l' -> taken_out l l'.
Proof. induction 1; constructor; auto. Qed.
Lemma taken_refl {X} (l : list X) : taken_out l l.
Proof. induction l; constructor; auto. Qed.
Lemma taken_app {X} (l l' m m' : list X) : taken_out l l' -> taken_out m m' -> taken_out (l ++ m) (l' ++ m').
Proof. induction 1; intros; cbn [app]; auto; constructor; auto. Qed.
Lemma taken_map {X Y} (f : X -> Y) l l' : taken_out l l' -> taken_out (map f l) (map f l').
Proof. induction 1; cbn [map]; constructor; auto. Qed.
Lemma taken_in {X} (l l' : list X) : taken_out l l' -> forall v, In v l' -> In v l.
Proof. induction 1; intros v Hv; cbn in *; intuition auto. Qed.
Lemma row_named c ks x r : Forall2 (fun k vs => alone c k x vs) ks r -> forall k, In k ks -> exists s, named k s (sh_name s).
Proof.
  induction 1 as [|k vs ks r A F IH]; intros j []; auto. subst j. apply alone_iff in A as (v0 & st & T & _). unfold takeoff in T.
  destruct (nth_error shipped_behaviours k) as [[s b]|] eqn:E; [|discriminate]. exists s. split; auto.
  rewrite <- c115_rows_are_the_shipped_rules. apply map_nth_error with (f := fst) in E. exact E.
Qed.

(** ** The comment *)
(** A suppressing comment takes out of a run exactly the violations of its file that start on
    its line; every other violation of this and of every other file stays, in place. *)
Theorem c130_comment_takes_out_its_line : forall i i' s rules c c' a x x' b line,
  driver_of i s rules = (c, Val tt) -> driver_of i' s rules = (c', Val tt) -> NoDup rules ->
  compiled i (a ++ x :: b) -> compiled i' (a ++ x' :: b) -> separate (a ++ x :: b) -> separate (a ++ x' :: b) ->
  well_formed x -> comment_added x x' line ->
  (forall k sh, In k rules -> named k sh $"long line" -> exists T cf, intForKey (os_cfg s) $"LONG_LINE" 100 = Val (T, cf)) ->
  exists vs vs', bucket_changed (length a) (c_collection c) (c_collection c') vs vs'
    /\ sublist_where (fun v => v_startLine v <> line) vs vs'.
Proof.
  intros i i' s rules c c' a x x' b line D D' Nd C C' S S' W (Co & P & P' & Tp & ls & ls' & L & L' & Lb) Fit.
  destruct (runs_differ _ _ _ _ _ _ _ _ _ _ D D' Nd C C' S S') as (r & r' & B & R & R').
  exists (concat r), (concat r'). split; auto. apply concat_where.
  assert (K : forall k, In k rules -> exists sh, named k sh (sh_name sh)) by (eapply row_named; eauto).
  clear - R R' K Co W P P' Tp L L' Lb Fit. revert r' R'. induction R as [|k vs rules r A R IH]; intros q R'; inversion R' as [|? vs' ? r' A' R2]; subst; constructor.
  - destruct (K k) as [sh N]; [now left|].
    assert (Q : exists vs0, alone (os_cfg s) k x' vs0 /\ sublist_where (fun v => v_startLine v <> line) vs vs0).
    { destruct (str_eqb (sh_name sh) $"long line") eqn:E.
      - apply str_eqb_eq in E. rewrite E in N. destruct (Fit k sh) as (T & cf & HT); [now left|exact N|].
        eapply (c120_comment_on_long_line _ cf T k sh x x' line ls ls'); eauto. apply (proj2 (proj2 Co)).
      - apply str_eqb_neq in E. eapply c120_comment_hides_its_line; eauto. }
    destruct Q as (vs0 & A0 & S0). now rewrite (alone_det _ _ _ _ _ A' A0).
  - apply IH; auto; [intros j sj Hj; apply Fit; now right|intros j Hj; apply K; now right].
Qed.

(** ** Annotations *)
(** An annotation naming one rule leaves the violations of every other rule as they were, and
    takes out those of its rule that concern the declaration or something in it. *)
Theorem c130_annotation_takes_out_its_rule : forall i i' s rules c c' a x x' b sh reason i0 under,
  driver_of i s rules = (c, Val tt) -> driver_of i' s rules = (c', Val tt) -> NoDup rules ->
  compiled i (a ++ x :: b) -> compiled i' (a ++ x' :: b) -> separate (a ++ x :: b) -> separate (a ++ x' :: b) ->
  well_formed x -> In sh shipped_rules ->
  annotated x x' ($"oclint:suppress[" ++ sh_attributeName sh ++ $"]" ++ reason) i0 under ->
  (forall j, under j \/ ~ under j) -> (forall k sk, In k rules -> ~ named k sk $"long line") ->
  exists vs vs', bucket_changed (length a) (c_collection c) (c_collection c') vs vs' /\ taken_out vs vs'
    /\ (forall k sk l, In k rules -> named k sk (sh_name sk) -> sk <> sh -> of_rule k vs l -> of_rule k vs' l)
    /\ (forall k, In k rules -> named k sh (sh_name sh) ->
        exists rs kept kept', all_findings (os_cfg s) k x rs
          /\ sublist_where (recorded (cx_env x) (sh_attributeName sh)) rs kept
          /\ sublist_where (fun f => ~ concerns i0 under f) kept kept'
          /\ of_rule k vs (map (violation_of (cx_env x) k) kept)
          /\ of_rule k vs' (map (violation_of (cx_env x) k) kept')).
Proof.
  intros i i' s rules c c' a x x' b sh reason i0 under D D' Nd C C' S S' W Is An Dec NoLine.
  destruct (runs_differ _ _ _ _ _ _ _ _ _ _ D D' Nd C C' S S') as (r & r' & B & R & R').
  assert (K : forall k, In k rules -> exists sk, named k sk (sh_name sk)) by (eapply row_named; eauto).
  exists (concat r), (concat r'). split; auto.
  assert (Nl : forall k sk, In k rules -> named k sk (sh_name sk) -> sh_name sk <> $"long line").
  { intros k sk Ik N E. apply (NoLine k sk Ik). now rewrite <- E. }
  split; [|split].
  - clear - R R' K An Dec W Nl Is. revert r' R'. induction R as [|k vs rules r A R IH]; intros q R'; inversion R' as [|? vs' ? r' A' R2]; subst; cbn [concat]; [constructor|].
    apply taken_app; [|apply IH; auto; [intros j Hj; apply K; now right|intros j sj Hj; apply Nl; now right]].
    destruct (K k) as [sk N]; [now left|]. pose proof (Nl k sk (or_introl eq_refl) N) as Nk.
    destruct (str_eqb (sh_attributeName sk) (sh_attributeName sh)) eqn:E.
    + apply str_eqb_eq in E. assert (sk = sh) as ->.
      { assert (Ik : In sk shipped_rules) by (destruct N as [N _]; eapply nth_error_In; exact N).
        now apply (proj2 (c108_names_are_unambiguous sk sh Ik Is)). }
      destruct (c121_hides_its_rule_inside _ _ _ _ _ _ _ _ _ _ An Dec W N Nk A) as (rs & kept & kept' & _ & _ & -> & S & A0).
      rewrite (alone_det _ _ _ _ _ A' A0). apply taken_map. eapply where_taken; eauto.
    + apply str_eqb_neq in E. assert (Ne : sk <> sh) by congruence.
      rewrite (alone_det _ _ _ _ _ A' (c121_others_unaffected _ _ _ _ _ _ _ _ _ _ _ Is An Dec W N Nk Ne A)). apply taken_refl.
  - intros k sk l Ik N Ne O. destruct (row_of_rule _ _ _ _ _ Nd Ik R) as (v1 & A1 & O1), (row_of_rule _ _ _ _ _ Nd Ik R') as (v2 & A2 & O2).
    assert (l = v1) as -> by (eapply sublist_where_det; eauto).
    pose proof (c121_others_unaffected _ _ _ _ _ _ _ _ _ _ _ Is An Dec W N (Nl _ _ Ik N) Ne A1) as A3. now rewrite (alone_det _ _ _ _ _ A3 A2).
  - intros k Ik N. destruct (row_of_rule _ _ _ _ _ Nd Ik R) as (v1 & A1 & O1), (row_of_rule _ _ _ _ _ Nd Ik R') as (v2 & A2 & O2).
    destruct (c121_hides_its_rule_inside _ _ _ _ _ _ _ _ _ _ An Dec W N (Nl _ _ Ik N) A1) as (rs & kept & kept' & F & S0 & -> & S1 & A0).
    exists rs, kept, kept'. rewrite (alone_det _ _ _ _ _ A2 A0) in O2. auto.
Qed.

(** ** The verdict *)
Lemma taken_subseq {X} (l l' : list X) : taken_out l l' -> subseq l' l.
Proof. induction 1; constructor; auto. Qed.
Lemma bucket_taken n l l' vs vs' : bucket_changed n l l' vs vs' -> taken_out vs vs' -> taken_out (concat l) (concat l').
Proof.
  intros (be & af & _ & -> & ->) T. rewrite !concat_app. cbn [concat]. apply taken_app; [apply taken_refl|].
  apply taken_app; auto using taken_refl.
Qed.
Lemma loaded_alike w i i' s rules : rules_loaded (program w i) s rules -> rules_loaded (program w i') s rules.
Proof.
  intros (ps & A & R). exists ps. split; [|exact R]. cbn [program w_env] in *. clear R.
  induction A; [apply asked_nil|apply asked_unreadable; assumption|eapply asked_readable; eassumption].
Qed.
Lemma verdict_kept w i i' ev ev' n s rules :
  main (program w i) = (ev, Exit 0) -> main (program w i') = (ev', Exit n) ->
  options_are (program w i) s -> rules_loaded (program w i) s rules ->
  (forall sel c c', filteredRules shipped_env (os_filter s) (registry rules) = Val sel ->
     driver_of i s sel = (c, Val tt) -> driver_of i' s sel = (c', Val tt) -> taken_out (concat (c_collection c)) (concat (c_collection c'))) ->
  n <> 5%Z.
Proof.
  intros M M' O L T. destruct (main_exit _ _ _ M) as [X _], (main_exit _ _ _ M') as [X' _]. intros ->.
  remember 0%Z as z eqn:E in X. destruct X; try discriminate. remember 5%Z as z' eqn:E' in X'. destruct X'; try discriminate.
  assert (O' : options_are (program w i') s) by exact O. assert (L' : rules_loaded (program w i') s rules) by exact (loaded_alike _ _ _ _ _ L).
  assert (s0 = s) by (eapply options_are_det; eauto). subst s0. assert (s1 = s) by (eapply options_are_det; eauto). subst s1.
  assert (rules0 = rules) by (eapply rules_loaded_det; eauto). subst rules0. assert (rules1 = rules) by (eapply rules_loaded_det; eauto). subst rules1.
  match goal with H : analysed (program w i) s rules ?c |- _ => apply program_analysed in H as (sel & Hsel & D); auto end.
  match goal with H : analysed (program w i') s rules ?c |- _ => apply program_analysed in H as (sel' & Hsel' & D'); auto end.
  rewrite Hsel in Hsel'. injection Hsel' as <-. specialize (T _ _ _ Hsel D D').
  match goal with H : ~ within_limits (program w i') s _ |- _ => apply H end. intros l Hl.
  destruct (shows_total (allowDuplicatedViolations s) c QViolations) as [l0 Hl0].
  match goal with H : within_limits (program w i) s _ |- _ => destruct (H l0 Hl0) as (B1 & B2 & B3) end.
  assert (Q : forall p, (count_priority (program w i') p l <= count_priority (program w i) p l0)%Z).
  { intros p. eapply more_counts; [reflexivity| |apply taken_subseq; exact T|exact Hl|exact Hl0]. auto. }
  pose proof (Q 1%Z). pose proof (Q 2%Z). pose proof (Q 3%Z). repeat split; lia.
Qed.

(** Adding suppressing comments or annotations never turns a run within the limits into one
    that exceeds them. *)
Theorem c130_comment_keeps_success : forall w i i' ev ev' n s rules a x x' b line,
  main (program w i) = (ev, Exit 0) -> main (program w i') = (ev', Exit n) ->
  options_are (program w i) s -> rules_loaded (program w i) s rules -> NoDup rules ->
  compiled i (a ++ x :: b) -> compiled i' (a ++ x' :: b) -> separate (a ++ x :: b) -> separate (a ++ x' :: b) ->
  well_formed x -> comment_added x x' line ->
  (exists T cf, intForKey (os_cfg s) $"LONG_LINE" 100 = Val (T, cf)) -> n <> 5%Z.
Proof.
  intros w i i' ev ev' n s rules a x x' b line M M' O L Nd C C' S S' W Co Fit.
  eapply (verdict_kept w i i' ev ev' n s rules); eauto. intros sel c c' Hs D D'.
  assert (Nds : NoDup sel). { rewrite filteredRules_eq in Hs. injection Hs as <-. now apply NoDup_filter. }
  destruct (c130_comment_takes_out_its_line _ _ _ _ _ _ _ _ _ _ _ D D' Nds C C' S S' W Co) as (vs & vs' & B & Sw); auto.
  eapply bucket_taken; eauto. eapply where_taken; eauto.
Qed.
Theorem c130_annotation_keeps_success : forall w i i' ev ev' n s rules a x x' b sh reason i0 under,
  main (program w i) = (ev, Exit 0) -> main (program w i') = (ev', Exit n) ->
  options_are (program w i) s -> rules_loaded (program w i) s rules -> NoDup rules ->
  compiled i (a ++ x :: b) -> compiled i' (a ++ x' :: b) -> separate (a ++ x :: b) -> separate (a ++ x' :: b) ->
  well_formed x -> In sh shipped_rules ->
  annotated x x' ($"oclint:suppress[" ++ sh_attributeName sh ++ $"]" ++ reason) i0 under ->
  (forall j, under j \/ ~ under j) ->
  (forall sel k sk, filteredRules shipped_env (os_filter s) (registry rules) = Val sel -> In k sel -> ~ named k sk $"long line") -> n <> 5%Z.
Proof.
  intros w i i' ev ev' n s rules a x x' b sh reason i0 under M M' O L Nd C C' S S' W Is An Dec NoLine.
  eapply (verdict_kept w i i' ev ev' n s rules); eauto. intros sel c c' Hs D D'.
  assert (Nds : NoDup sel). { rewrite filteredRules_eq in Hs. injection Hs as <-. now apply NoDup_filter. }
  destruct (c130_annotation_takes_out_its_rule _ _ _ _ _ _ _ _ _ _ _ _ _ _ D D' Nds C C' S S' W Is An Dec) as (vs & vs' & B & T & _); eauto.
  eapply bucket_taken; eauto.
Qed.

(** ** Cases *)
Lemma exu_separate l m : separate ([ex_x] ++ exu l m :: []).
Proof.
  constructor; [|constructor; [intros y []|constructor]]. intros y [<-|[]]. split; [intros E; discriminate E|].
  intros i Hx Hy. apply address_iff in Hx, Hy. vm_compute in Hx, Hy. intuition lia.
Qed.
(** The goto of b.c receives a comment: its violation disappears, the long function of b.c and
    everything of a.c stay. *)
Example c130_comment_case : comment_added (exu [8%Z] []) (exu [8%Z; 6%Z] []) 6 /\ well_formed (exu [8%Z] [])
  /\ compiled (ex_inputs ex_x (exu [8%Z] [])) ([ex_x] ++ exu [8%Z] [] :: []) /\ compiled (ex_inputs ex_x (exu [8%Z; 6%Z] [])) ([ex_x] ++ exu [8%Z; 6%Z] [] :: [])
  /\ separate ([ex_x] ++ exu [8%Z] [] :: []) /\ separate ([ex_x] ++ exu [8%Z; 6%Z] [] :: []) /\ NoDup [10; 52; 62; 63]
  /\ (exists T cf, intForKey (os_cfg (os_initial exm_cl)) $"LONG_LINE" 100 = Val (T, cf))
  /\ exists c c', driver_of (ex_inputs ex_x (exu [8%Z] [])) (os_initial exm_cl) [10; 52; 62; 63] = (c, Val tt)
     /\ driver_of (ex_inputs ex_x (exu [8%Z; 6%Z] [])) (os_initial exm_cl) [10; 52; 62; 63] = (c', Val tt)
     /\ map (map (fun v => (v_rule v, v_startLine v))) (c_collection c) = [[(Some 52, 8%Z); (Some 63, 0%Z)]; [(Some 10, 6%Z); (Some 63, 0%Z)]]
     /\ map (map (fun v => (v_rule v, v_startLine v))) (c_collection c') = [[(Some 52, 8%Z); (Some 63, 0%Z)]; [(Some 63, 0%Z)]].
Proof.
  split.
  { split; [apply c120_case|]. split; [discriminate|]. split; [reflexivity|]. split; [reflexivity|].
    exists [$"short"; $"text"], [$"short"; $"text"].
    split; [apply source_lines_iff; reflexivity|]. split; [apply source_lines_iff; reflexivity|].
    unfold lines_but. induction (numbered 1 _); constructor; auto. }
  split; [apply c120_case|]. split; [apply ex_compiled|]. split; [apply ex_compiled|].
  split; [apply exu_separate|]. split; [apply exu_separate|].
  split; [repeat constructor; cbn; intuition discriminate|]. split; [do 2 eexists; vm_compute; reflexivity|].
  do 2 eexists. split; [vm_compute; reflexivity|]. split; [vm_compute; reflexivity|]. split; vm_compute; reflexivity.
Qed.
(** Annotating the function for the goto rule. *)
Example c130_annotation_case :
  let x' := exu [] [$"oclint:suppress[goto statement]" ++ $"[why]"] in
  annotated (exu [] []) x' ($"oclint:suppress[" ++ sh_attributeName sh_GotoStatement ++ $"]" ++ $"[why]") 200 (fun i => 200 < i <= 208)
  /\ compiled (ex_inputs ex_x (exu [] [])) ([ex_x] ++ exu [] [] :: []) /\ compiled (ex_inputs ex_x x') ([ex_x] ++ x' :: [])
  /\ separate ([ex_x] ++ exu [] [] :: []) /\ separate ([ex_x] ++ x' :: []) /\ (forall k sk, In k [10; 52; 63] -> ~ named k sk $"long line")
  /\ exists c c', driver_of (ex_inputs ex_x (exu [] [])) (os_initial exm_cl) [10; 52; 63] = (c, Val tt)
     /\ driver_of (ex_inputs ex_x x') (os_initial exm_cl) [10; 52; 63] = (c', Val tt)
     /\ map (map (fun v => (v_rule v, v_startLine v))) (c_collection c) = [[(Some 52, 8%Z); (Some 63, 0%Z)]; [(Some 10, 6%Z); (Some 52, 8%Z); (Some 63, 0%Z)]]
     /\ map (map (fun v => (v_rule v, v_startLine v))) (c_collection c') = [[(Some 52, 8%Z); (Some 63, 0%Z)]; [(Some 52, 8%Z); (Some 63, 0%Z)]].
Proof.
  split; [apply c121_case|]. split; [apply ex_compiled|]. split; [apply ex_compiled|].
  split; [apply exu_separate|]. split; [apply exu_separate|].
  split. { intros k sk [<-|[<-|[<-|[]]]] [E1 E2]; injection E1 as <-; discriminate E2. }
  do 2 eexists. split; [vm_compute; reflexivity|]. split; [vm_compute; reflexivity|]. split; vm_compute; reflexivity.
Qed.
(** Both processes, with at most four violations of priority 3 allowed: each succeeds; with at
    most three only the commented one does. *)
Example c130_success_case :
  let w n := with_cmdline (ex_world [10; 52; 63]) (with_limits exm_cl 0 0 n) in
  snd (main (program (w 4%Z) (ex_inputs ex_x (exu [8%Z] [])))) = Exit 0
  /\ snd (main (program (w 4%Z) (ex_inputs ex_x (exu [8%Z; 6%Z] [])))) = Exit 0
  /\ snd (main (program (w 3%Z) (ex_inputs ex_x (exu [8%Z] [])))) = Exit 5
  /\ snd (main (program (w 3%Z) (ex_inputs ex_x (exu [8%Z; 6%Z] [])))) = Exit 0.
Proof. repeat split; vm_compute; reflexivity. Qed.
Print Assumptions c130_comment_takes_out_its_line.
Print Assumptions c130_annotation_takes_out_its_rule.
Print Assumptions c130_comment_keeps_success.
Print Assumptions c130_annotation_keeps_success.
