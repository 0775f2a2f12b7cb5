(** * Proofs about the program as a whole *)
From Verif Require Import Base BaseFacts ModelResults ModelConfig ModelFilter ModelOptions ModelMain ModelDriver
  ModelSource ModelAST ModelRules ModelRulesBasic ModelRulesConvention ModelRulesNullCheck
  ModelRulesRedundant ModelRulesVars ModelRulesObjC ModelRuleTable ModelProgram
  SpecFilter SpecAST SpecSource SpecRules SpecRulesRedundant SpecRulesVars SpecDriver SpecProgram
  ProofFilter ProofSource ProofAST ProofRules ProofRulesRedundant ProofRulesVars.
From Coq Require Import Lia.
Local Arguments lit : simpl never.
Local Arguments markedAsSuppress : simpl never.

Lemma lookup_cons {A} k (v : A) m k' : lookup ((k, v) :: m) k' = if str_eqb k k' then Some v else lookup m k'.
Proof. reflexivity. Qed.

(** ** The caches *)
Section Cache.
  Variable U : tunit -> Prop.
  Hypothesis consistent : forall u v, U u -> U v -> u_path u = u_path v ->
    u_comments u = u_comments v /\ u_top u = u_top v.
  Definition cache_ok (sc : scache) : Prop := forall u, U u ->
    (lookup (sc_lines sc) (u_path u) = None \/ lookup (sc_lines sc) (u_path u) = Some (commentLines u))
    /\ (lookup (sc_ranges sc) (u_path u) = None
        \/ lookup (sc_ranges sc) (u_path u) = Some (collectRanges u $"long line")).
  Lemma fresh_ok : cache_ok sc_fresh.
  Proof. intros u _. split; left; reflexivity. Qed.
  Lemma line_ok line u sc : U u -> cache_ok sc ->
    fst (lineBasedShouldSuppress line u sc) = existsb (Z.eqb line) (commentLines u)
    /\ cache_ok (snd (lineBasedShouldSuppress line u sc)).
  Proof.
    intros Hu Hc. unfold lineBasedShouldSuppress. destruct (Hc u Hu) as [[E|E] _]; rewrite E; cbn [fst snd].
    - split; auto. intros v Hv. cbn [sc_lines sc_ranges]. split; [|apply Hc; auto].
      rewrite lookup_cons. destruct (str_eqb (u_path u) (u_path v)) eqn:P; [|apply Hc; auto].
      right. apply str_eqb_eq in P. destruct (consistent u v Hu Hv P) as [C _].
      unfold commentLines. now rewrite C.
    - auto.
  Qed.
  Lemma range_ok line u sc : U u -> cache_ok sc ->
    fst (rangeBasedShouldSuppress line u $"long line" sc) = inRanges line (collectRanges u $"long line")
    /\ cache_ok (snd (rangeBasedShouldSuppress line u $"long line" sc)).
  Proof.
    intros Hu Hc. unfold rangeBasedShouldSuppress. destruct (Hc u Hu) as [_ [E|E]]; rewrite E; cbn [fst snd].
    - split; auto. intros v Hv. cbn [sc_lines sc_ranges]. split; [apply Hc; auto|].
      rewrite lookup_cons. destruct (str_eqb (u_path u) (u_path v)) eqn:P; [|apply Hc; auto].
      right. apply str_eqb_eq in P. destruct (consistent u v Hu Hv P) as [_ C].
      unfold collectRanges. now rewrite C.
    - auto.
  Qed.
  Lemma suppress_ok line u rule sc sc' : U u -> cache_ok sc -> cache_ok sc' ->
    rule = None \/ rule = Some $"long line" ->
    fst (shouldSuppress_line line u rule sc) = fst (shouldSuppress_line line u rule sc')
    /\ cache_ok (snd (shouldSuppress_line line u rule sc)).
  Proof.
    intros Hu Hc Hc' Hr. unfold shouldSuppress_line.
    destruct (line_ok line u sc Hu Hc) as [A B]. destruct (line_ok line u sc' Hu Hc') as [A' B'].
    destruct (lineBasedShouldSuppress line u sc) as [b1 s1], (lineBasedShouldSuppress line u sc') as [b2 s2].
    cbn [fst snd] in *. subst b1 b2.
    destruct (existsb (Z.eqb line) (commentLines u)); [auto|].
    destruct Hr as [->| ->]; [auto|].
    destruct (range_ok line u s1 Hu B) as [C D]. destruct (range_ok line u s2 Hu B') as [C' D'].
    rewrite C, C'. auto.
  Qed.
  (** The same violations from any two good caches. *)
  Lemma add_report_ok e rule attr r vs sc sc' : U (e_unit e) -> cache_ok sc -> cache_ok sc' ->
    fst (add_report e rule attr (vs, sc) r) = fst (add_report e rule attr (vs, sc') r)
    /\ cache_ok (snd (add_report e rule attr (vs, sc) r)).
  Proof.
    intros Hu Hc Hc'. unfold add_report. cbn [fst snd].
    set (l := e_loc e (n_id (rp_node r))).
    assert (L : fst (addViolation_loc (e_unit e) l rule (rp_message r) vs sc)
                = fst (addViolation_loc (e_unit e) l rule (rp_message r) vs sc')
                /\ cache_ok (snd (addViolation_loc (e_unit e) l rule (rp_message r) vs sc))).
    { unfold addViolation_loc.
      destruct (suppress_ok (l_line l) (e_unit e) None sc sc' Hu Hc Hc' (or_introl eq_refl)) as [A B].
      destruct (shouldSuppress_line (l_line l) (e_unit e) None sc) as [b1 s1],
               (shouldSuppress_line (l_line l) (e_unit e) None sc') as [b2 s2].
      cbn [fst snd] in *. subst b2. destruct b1; auto. }
    destruct (isDecl (rp_node r)); unfold addViolation_decl, addViolation_stmt.
    - destruct (shouldSuppress_decl _ _ _); auto.
    - destruct (shouldSuppress_stmt _ _); auto.
  Qed.
  Lemma add_reports_ok e rule attr rs : U (e_unit e) -> forall vs sc sc', cache_ok sc -> cache_ok sc' ->
    fst (fold_left (add_report e rule attr) rs (vs, sc)) = fst (fold_left (add_report e rule attr) rs (vs, sc'))
    /\ cache_ok (snd (fold_left (add_report e rule attr) rs (vs, sc))).
  Proof.
    intros Hu. induction rs as [|r rs IH]; intros vs sc sc' Hc Hc'; cbn [fold_left]; [auto|].
    destruct (add_report_ok e rule attr r vs sc sc' Hu Hc Hc') as [A B].
    destruct (add_report_ok e rule attr r vs sc' sc Hu Hc' Hc) as [_ B'].
    destruct (add_report e rule attr (vs, sc) r) as [v1 s1], (add_report e rule attr (vs, sc') r) as [v2 s2].
    cbn [fst snd] in *. subst v2. apply IH; auto.
  Qed.
  Lemma long_line_ok c u rule lines : U u -> forall vs sc sc', cache_ok sc -> cache_ok sc' ->
    match LongLine_loop c u rule lines vs sc, LongLine_loop c u rule lines vs sc' with
    | Val a, Val b => fst a = fst b /\ cache_ok (snd a)
    | Exc m, Exc m' => m = m'
    | UB, UB => True
    | _, _ => False
    end.
  Proof.
    intros Hu. induction lines as [|[n l] lines IH]; intros vs sc sc' Hc Hc'; cbn [LongLine_loop]; [auto|].
    unfold LongLine_eachLine.
    destruct (intForKey c $"LONG_LINE" 100) as [[T c']|m|]; cbn [obind]; auto.
    cbn [fst]. destruct (T <? Z.of_nat (length l))%Z; cbn [obind fst snd]; [|apply IH; auto].
    unfold addViolation_line.
    destruct (suppress_ok n u (Some $"long line") sc sc' Hu Hc Hc' (or_intror eq_refl)) as [A B].
    destruct (suppress_ok n u (Some $"long line") sc' sc Hu Hc' Hc (or_intror eq_refl)) as [_ B'].
    destruct (shouldSuppress_line n u _ sc) as [b1 s1], (shouldSuppress_line n u _ sc') as [b2 s2].
    cbn [fst snd] in *. subst b2. destruct b1; cbn [fst snd]; apply IH; auto.
  Qed.
End Cache.

(** ** The stack of the short-name rule *)
Section Stack.
  Variable A : nat -> Prop.
  Definition foreign (s : list nat) : Prop := forall i, In i s -> ~ A i.
  Lemma tl_in {X} (l : list X) i : In i (tl l) -> In i l.
  Proof. destruct l; cbn; auto. Qed.
  Lemma short_visit_foreign T n s1 s2 : A (n_id n) -> s1 = s2 \/ (foreign s1 /\ foreign s2) ->
    let r1 := ShortVariableName_visit T n s1 in let r2 := ShortVariableName_visit T n s2 in
    snd r1 = snd r2 /\ (fst r1 = fst r2 \/ (foreign (fst r1) /\ foreign (fst r2))).
  Proof.
    intros Hn [->|[F1 F2]]; cbn zeta; [auto|]. rewrite !short_visit.
    destruct (headOf n) as [ds|]; cbn [fst snd]; [auto|].
    destruct (isShort T n); cbn [fst snd]; [|auto].
    assert (X : forall s, foreign s -> match s with t :: _ => n_id n =? t | [] => false end = false).
    { intros [|t s] F; auto. apply Nat.eqb_neq. intros E. apply (F t); [left; auto|]. now rewrite <- E. }
    rewrite (X s1 F1), (X s2 F2). split; auto. right. split; intros i Hi; [apply F1|apply F2]; now apply tl_in.
  Qed.
  Lemma short_visit_stack T n s i : (forall ds d, headOf n = Some ds -> In d ds -> A (n_id d)) ->
    In i (fst (ShortVariableName_visit T n s)) -> In i s \/ A i.
  Proof.
    intros Hh. rewrite short_visit. destruct (headOf n) as [ds|] eqn:E; cbn [fst].
    - unfold heads. intros H. apply in_map_iff in H as (d & <- & Hd). apply filter_In in Hd as [Hd _]. right. eapply Hh; eauto.
    - destruct (isShort T n); cbn [fst]; auto using tl_in.
  Qed.
  Lemma short_fold T l : (forall n, In n l -> A (n_id n)) ->
    (forall n ds d, In n l -> headOf n = Some ds -> In d ds -> A (n_id d)) ->
    forall s1 s2 rs, s1 = s2 \/ (foreign s1 /\ foreign s2) ->
    let f := fold_left (fun st m => snd (stateful_visit (ShortVariableName_visit T) m st)) l in
    snd (f (s1, rs)) = snd (f (s2, rs)) /\ (forall i, In i (fst (f (s1, rs))) -> In i s1 \/ A i).
  Proof.
    intros Hl Hh. cbn zeta. induction l as [|n l IH]; intros s1 s2 rs R; cbn [fold_left]; [cbn; auto|].
    unfold stateful_visit at 2 4 6.
    destruct (short_visit_foreign T n s1 s2) as [E R']; [apply Hl; cbn; auto|auto|].
    assert (S : forall i, In i (fst (ShortVariableName_visit T n s1)) -> In i s1 \/ A i).
    { intros i. apply short_visit_stack. intros ds d. apply Hh. cbn; auto. }
    destruct (ShortVariableName_visit T n s1) as [t1 r1], (ShortVariableName_visit T n s2) as [t2 r2].
    cbn [fst snd] in *. subst r2.
    destruct (IH (fun m Hm => Hl m (or_intror Hm)) (fun m ds d Hm => Hh m ds d (or_intror Hm)) t1 t2 (rs ++ r1) R') as [P Q].
    split; auto. intros i Hi. apply Q in Hi as [Hi|Hi]; auto.
  Qed.
End Stack.

Lemma roots_of_tops x s root : In root (roots_of x s) -> exists t, In (t, root) (cx_tops x).
Proof.
  unfold roots_of. intros H. apply in_flat_map in H as (a & _ & H).
  destruct a as [|id|]; [destruct H| |destruct H].
  destruct (find _ (cx_tops x)) as [[t r]|] eqn:F; [|destruct H]. destruct H as [->|[]].
  exists t. now apply find_some in F.
Qed.
Lemma ShortVariableName_run_foreign c x s st1 st2 : foreign (address x) st1 -> foreign (address x) st2 ->
  match ShortVariableName_run c st1 (roots_of x s), ShortVariableName_run c st2 (roots_of x s) with
  | Val a, Val b => snd a = snd b /\ (forall i, In i (fst a) -> In i st1 \/ address x i)
  | Exc m, Exc m' => m = m'
  | UB, UB => True
  | _, _ => False
  end.
Proof.
  intros F1 F2. rewrite !short_cases.
  assert (K : forall n m, In n (all_nodes (roots_of x s)) -> below n m -> address x (n_id m)).
  { intros n m Hn Hb. unfold all_nodes in Hn. apply in_flat_map in Hn as (r & Hr & Hn).
    apply roots_of_tops in Hr as (t & Ht). exists t, r, m. split; auto. split; auto.
    apply in_nodes. eapply below_trans; [apply in_nodes; exact Hn|exact Hb]. }
  assert (P : forall T, snd (short_pure T st1 (roots_of x s)) = snd (short_pure T st2 (roots_of x s))
    /\ (forall i, In i (fst (short_pure T st1 (roots_of x s))) -> In i st1 \/ address x i)).
  { intros T. apply short_fold; auto.
    - intros n Hn. eapply K; [exact Hn|apply below_self].
    - intros n ds d Hn Hh Hd. eapply K; [exact Hn|eapply head_kids; eauto]. }
  destruct (intForKey c _ 3) as [[T c']|m|]; auto; destruct (existsb _ _); auto.
Qed.

(** ** A rule on a unit *)
Definition same_outcome {X Y} (P : X -> Y -> Prop) (a : outcome X) (b : outcome Y) : Prop :=
  match a, b with
  | Val x, Val y => P x y
  | Exc m, Exc m' => m = m'
  | UB, UB => True
  | _, _ => False
  end.
Definition keeps_stack (k : nat) : bool :=
  match nth_error shipped_behaviours k with Some (_, BStack) => false | _ => true end.
Lemma takeoff_ok (U : tunit -> Prop)
  (consistent : forall u v, U u -> U v -> u_path u = u_path v -> u_comments u = u_comments v /\ u_top u = u_top v)
  c k x st st' : U (main_unit x) -> cache_ok U (r_cache st) -> cache_ok U (r_cache st') ->
  (keeps_stack k = false -> foreign (address x) (r_stack st) /\ foreign (address x) (r_stack st')) ->
  same_outcome (fun a b => fst a = fst b /\ cache_ok U (r_cache (snd a))
      /\ (keeps_stack k = true -> r_stack (snd a) = r_stack st)
      /\ (forall i, In i (r_stack (snd a)) -> In i (r_stack st) \/ address x i))
    (takeoff c k x st) (takeoff c k x st').
Proof.
  intros Hu Hc Hc' Hs. unfold takeoff, keeps_stack in *. destruct (nth_error shipped_behaviours k) as [[s b]|]; [|exact I].
  assert (G : forall (a1 a2 : outcome (list nat * list report)),
    same_outcome (fun p q => snd p = snd q
      /\ (match b with BStack => False | _ => True end -> fst p = r_stack st)
      /\ (forall i, In i (fst p) -> In i (r_stack st) \/ address x i)) a1 a2 ->
    same_outcome (fun a b' => fst a = fst b' /\ cache_ok U (r_cache (snd a))
      /\ (match b with BStack => false | _ => true end = true -> r_stack (snd a) = r_stack st)
      /\ (forall i, In i (r_stack (snd a)) -> In i (r_stack st) \/ address x i))
    (obind a1 (fun r => let '(vs, sc) := fold_left (add_report (cx_env x) k (sh_attributeName s)) (snd r) ([], r_cache st) in
        Val (vs, {| r_cache := sc; r_stack := fst r |})))
    (obind a2 (fun r => let '(vs, sc) := fold_left (add_report (cx_env x) k (sh_attributeName s)) (snd r) ([], r_cache st') in
        Val (vs, {| r_cache := sc; r_stack := fst r |})))).
  { intros [[p1 p2]|m|] [[q1 q2]|m'|] H; cbn [same_outcome obind] in *; auto; try contradiction.
    cbn [fst snd] in H. destruct H as (<- & E & I). cbn [fst snd].
    destruct (add_reports_ok U consistent (cx_env x) k (sh_attributeName s) p2 Hu [] _ _ Hc Hc') as [P Q].
    match goal with |- same_outcome _ (let '(_, _) := ?F1 in _) (let '(_, _) := ?F2 in _) =>
      change (fst F1 = fst F2) in P; change (cache_ok U (snd F1)) in Q; destruct F1, F2 end.
    cbn [fst snd same_outcome r_cache r_stack] in *. split; auto. split; auto. split; auto.
    intros K. apply E. destruct b; auto; discriminate. }
  destruct b; try (apply G; cbn [calls same_outcome fst snd]; now auto).
  - apply G. unfold calls. destruct (each_root (rule c x) (roots_of x s)); cbn [obind same_outcome fst snd]; auto.
  - apply G. unfold calls. destruct (set_up x s); [|cbn; auto]. destruct (rule c x (roots_of x s)); cbn [obind same_outcome fst snd]; auto.
  - apply G. destruct (Hs eq_refl) as [F1 F2]. pose proof (ShortVariableName_run_foreign c x s _ _ F1 F2) as R. unfold calls, same_outcome.
    destruct (ShortVariableName_run c (r_stack st) _), (ShortVariableName_run c (r_stack st') _); try contradiction; auto. destruct R. tauto.
  - pose proof (long_line_ok U consistent c (main_unit x) k (source_lines (u_content (main_unit x))) Hu [] _ _ Hc Hc') as L.
    unfold LongLine_apply. fold (main_unit x).
    destruct (LongLine_loop _ _ _ _ [] (r_cache st)) as [[v1 s1]|m|], (LongLine_loop _ _ _ _ [] (r_cache st')) as [[v2 s2]|m'|];
      cbn [obind same_outcome fst snd r_cache r_stack] in *; auto; try contradiction.
    destruct L as [L1 L2]. tauto.
Qed.

Definition is_stack (b : behaviour) : bool := match b with BStack => true | _ => false end.
Lemma stack_rule_unique a b : keeps_stack a = false -> keeps_stack b = false -> a = b.
Proof.
  assert (E : exists K, map (fun p => is_stack (snd p)) shipped_behaviours
                        = repeat false K ++ true :: repeat false (length shipped_behaviours - S K)).
  { exists 52.
    vm_compute. reflexivity. }
  destruct E as [K E].
  assert (P : forall k, keeps_stack k = false -> k = K).
  { intros k H. assert (N : nth_error (map (fun p => is_stack (snd p)) shipped_behaviours) k = Some true).
    { unfold keeps_stack in H. rewrite nth_error_map. destruct (nth_error shipped_behaviours k) as [[s []]|]; try discriminate. reflexivity. }
    rewrite E in N. destruct (lt_eq_lt_dec k K) as [[L|L]|L]; auto; exfalso.
    - rewrite nth_error_app1 in N by (rewrite repeat_length; lia). apply nth_error_In, repeat_spec in N. discriminate.
    - rewrite nth_error_app2 in N by (rewrite repeat_length; lia). rewrite repeat_length in N.
      destruct (k - K) as [|d] eqn:D; [lia|]. cbn [nth_error] in N. apply nth_error_In, repeat_spec in N. discriminate. }
  intros Ha Hb. rewrite (P a Ha), (P b Hb). reflexivity.
Qed.

(** ** All rules on all units *)
Section Units.
  Variable c : cfg.
  Variable U : tunit -> Prop.
  Hypothesis consistent : forall u v, U u -> U v -> u_path u = u_path v ->
    u_comments u = u_comments v /\ u_top u = u_top v.
  Definition ready (rules : list nat) (x : tuctx) (st : rstate) : Prop :=
    cache_ok U (r_cache st) /\ (Exists (fun k => keeps_stack k = false) rules -> foreign (address x) (r_stack st)).
  Definition grown (x : tuctx) (st st' : rstate) : Prop :=
    cache_ok U (r_cache st') /\ (forall i, In i (r_stack st') -> In i (r_stack st) \/ address x i).
  Lemma initial_ready rules x : ready rules x r_initial.
  Proof. split; [intros u _; split; left; reflexivity|]. intros _ i []. Qed.

  Lemma takeoff_alone k rules x st : U (main_unit x) -> NoDup (k :: rules) -> ready (k :: rules) x st ->
    same_outcome (fun a b => fst a = fst b /\ ready rules x (snd a) /\ grown x st (snd a))
      (takeoff c k x st) (takeoff c k x r_initial).
  Proof.
    intros Hu Hd [Hc Hf]. destruct (initial_ready (k :: rules) x) as [Hc0 Hf0].
    assert (K : keeps_stack k = false -> foreign (address x) (r_stack st) /\ foreign (address x) (r_stack r_initial)).
    { intros E. split; [apply Hf|apply Hf0]; now constructor. }
    pose proof (takeoff_ok U consistent c k x st r_initial Hu Hc Hc0 K) as T.
    destruct (takeoff c k x st) as [[v s]|m|], (takeoff c k x r_initial) as [[v' s']|m'|]; cbn [same_outcome fst snd] in *; auto; try contradiction.
    destruct T as (E & Hc' & Hk & Hi). split; [exact E|]. split; [|now split].
    split; [exact Hc'|]. intros X. destruct (keeps_stack k) eqn:Kk.
    - rewrite (Hk eq_refl). apply Hf. now right.
    - exfalso. apply Exists_exists in X as (k' & Hk' & E'). inversion Hd; subst.
      now rewrite (stack_rule_unique k k' Kk E') in *.
  Qed.
  Lemma unit_alone rules x : U (main_unit x) -> NoDup rules -> forall st, ready rules x st ->
    (forall vss st', unit_run (takeoff c) rules x st vss st' ->
      Forall2 (fun k vs => exists s, takeoff c k x r_initial = Val (vs, s)) rules vss /\ grown x st st')
    /\ (forall vss, Forall2 (fun k vs => exists s, takeoff c k x r_initial = Val (vs, s)) rules vss ->
        exists st', unit_run (takeoff c) rules x st vss st').
  Proof.
    intros Hu Hd. induction rules as [|k rules IH]; intros st Hr.
    - split.
      + intros vss st' R. inversion R; subst. split; [constructor|]. split; [apply Hr|auto].
      + intros vss F. inversion F; subst. eexists. constructor.
    - assert (Hd' : NoDup rules) by now inversion Hd.
      pose proof (takeoff_alone k rules x st Hu Hd Hr) as T. split.
      + intros vss st' R. inversion R; subst.
        match goal with E : takeoff c k x st = _ |- _ => rewrite E in T end.
        destruct (takeoff c k x r_initial) as [[v' s']|m'|] eqn:E0; cbn [same_outcome fst snd] in T; try contradiction.
        destruct T as (<- & Hr1 & Hg1).
        match goal with R : unit_run _ rules x _ _ _ |- _ => destruct (proj1 (IH Hd' _ Hr1) _ _ R) as [F [G1 G2]] end.
        split; [constructor; eauto|]. split; auto. intros i Hi. destruct (G2 i Hi) as [Hi'|Hi']; auto. now apply Hg1.
      + intros vss F. inversion F; subst.
        match goal with E : exists s, takeoff c k x r_initial = _ |- _ => destruct E as [s E]; rewrite E in T end.
        destruct (takeoff c k x st) as [[v' s']|m'|] eqn:E0; cbn [same_outcome fst snd] in T; try contradiction.
        destruct T as (-> & Hr1 & Hg1).
        match goal with F : Forall2 _ rules _ |- _ => destruct (proj2 (IH Hd' _ Hr1) _ F) as [st' R] end.
        exists st'. econstructor; eauto.
  Qed.
End Units.

Lemma units_alone (c : cfg) (U : tunit -> Prop) (rules : list nat) : (forall u v, U u -> U v -> u_path u = u_path v -> u_comments u = u_comments v /\ u_top u = u_top v) ->
  NoDup rules -> forall xs st, (forall x, In x xs -> U (main_unit x)) -> separate xs ->
  cache_ok U (r_cache st) -> (forall x, In x xs -> foreign (address x) (r_stack st)) ->
  (forall all st', units_run (takeoff c) rules xs st all st' ->
    Forall2 (fun x row => Forall2 (fun k vs => exists s, takeoff c k x r_initial = Val (vs, s)) rules row) xs all)
  /\ (forall all, Forall2 (fun x row => Forall2 (fun k vs => exists s, takeoff c k x r_initial = Val (vs, s)) rules row) xs all ->
      exists st', units_run (takeoff c) rules xs st all st').
Proof.
  intros Hcons Hd. induction xs as [|x xs IH]; intros st Hu Hs Hc Hf.
  - split.
    + intros all st' R. inversion R; subst. constructor.
    + intros all F. inversion F; subst. eexists. constructor.
  - inversion Hs; subst.
    assert (Hr : ready U rules x st) by (split; [auto|intros _; apply Hf; now left]).
    destruct (unit_alone c U Hcons rules x (Hu x (or_introl eq_refl)) Hd st Hr) as [A B].
    assert (Next : forall vss st1, unit_run (takeoff c) rules x st vss st1 ->
       cache_ok U (r_cache st1) /\ (forall y, In y xs -> foreign (address y) (r_stack st1))).
    { intros vss st1 R. destruct (A _ _ R) as [_ [G1 G2]]. split; auto.
      intros y Hy i Hi Ay. destruct (G2 i Hi) as [Hi'|Hi'].
      - apply (Hf y (or_intror Hy) i); auto.
      - match goal with S : forall y, In y xs -> agree x y /\ disjoint_memory x y |- _ => destruct (S y Hy) as [_ D] end.
        apply (D i); auto. }
    split.
    + intros all st' R. inversion R; subst.
      match goal with R1 : unit_run _ rules x st _ _ |- _ => destruct (Next _ _ R1) as [N1 N2]; destruct (A _ _ R1) as [F _] end.
      constructor; auto.
      match goal with R2 : units_run _ rules xs _ _ _ |- _ =>
        eapply (proj1 (IH _ (fun y Hy => Hu y (or_intror Hy)) ltac:(assumption) N1 N2)); exact R2 end.
    + intros all F. inversion F; subst.
      match goal with F1 : Forall2 _ rules _ |- _ => destruct (B _ F1) as [st1 R1] end.
      destruct (Next _ _ R1) as [N1 N2].
      match goal with F2 : Forall2 _ xs _ |- _ =>
        destruct (proj2 (IH st1 (fun y Hy => Hu y (or_intror Hy)) ltac:(assumption) N1 N2) _ F2) as [st' R2] end.
      exists st'. econstructor; eauto.
Qed.

(** The units of a run are consistent when they are pairwise separate. *)
Lemma separate_agree xs : separate xs -> forall x y, In x xs -> In y xs -> agree x y.
Proof.
  induction 1 as [|z l Hz Hl IH]; intros x y [] [] ; subst; auto.
  - intros _. auto.
  - now apply Hz.
  - match goal with I : In x l |- _ => destruct (Hz x I) as [A _] end. intros E. destruct (A (eq_sym E)) as [P Q]. now rewrite P, Q.
Qed.
Lemma units_alone_initial c rules xs : NoDup rules -> separate xs ->
  (forall all st', units_run (takeoff c) rules xs r_initial all st' ->
    Forall2 (fun x row => Forall2 (fun k vs => exists s, takeoff c k x r_initial = Val (vs, s)) rules row) xs all)
  /\ (forall all, Forall2 (fun x row => Forall2 (fun k vs => exists s, takeoff c k x r_initial = Val (vs, s)) rules row) xs all ->
      exists st', units_run (takeoff c) rules xs r_initial all st').
Proof.
  intros Hd Hs. apply units_alone with (U := fun u => exists x, In x xs /\ u = main_unit x); auto.
  - intros u v (x & Hx & ->) (y & Hy & ->) E. now apply (separate_agree xs Hs x y Hx Hy).
  - eauto.
  - apply fresh_ok.
  - intros x _ i [].
Qed.

Lemma alone_iff c k x vs : alone c k x vs <-> exists v0 s, takeoff c k x r_initial = Val (v0, s) /\ vs = recordable v0.
Proof.
  unfold alone. cbn [analyze rules_loop]. destruct (takeoff c k x r_initial) as [[v0 s]|m|] eqn:E; cbn [obind fst snd].
  - rewrite fold_carrier_report. cbn [c_add c_empty c_collection c_errors c_warnings c_bugs app]. split.
    + intros [st [= <- _]]. eauto.
    + intros (v1 & s1 & [= <- <-] & ->). eauto.
  - split; [intros [st [=]]|intros (? & ? & [=] & _)].
  - split; [intros [st [=]]|intros (? & ? & [=] & _)].
Qed.
