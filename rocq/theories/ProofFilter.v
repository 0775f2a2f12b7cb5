(** * Proofs: rule selection and analyzer loop *)
From Verif Require Import Base BaseFacts ModelResults ModelConfig ModelFilter
  SpecFilter ProofResults ProofConfig.

Lemma sset_mem_in s x : sset_mem s x = true <-> In x s.
Proof.
  unfold sset_mem. rewrite existsb_exists. split.
  - intros (y & H & E). apply str_eqb_eq in E. now subst.
  - intros H. exists x. split; auto. apply str_eqb_refl.
Qed.

Lemma sset_insert_in s x y : In y (sset_insert s x) <-> y = x \/ In y s.
Proof.
  unfold sset_insert. destruct (sset_mem s x) eqn:E; simpl.
  - apply sset_mem_in in E. split; [tauto|]. intros [->|]; auto.
  - split; intros [H|H]; auto.
Qed.

Lemma sset_erase_in s x y : In y (sset_erase s x) <-> y <> x /\ In y s.
Proof.
  unfold sset_erase. rewrite filter_In, negb_true_iff, str_eqb_neq. tauto.
Qed.

Lemma enable_enabled f n x : In x (f_enabled (enableRule f n)) <-> x = n \/ In x (f_enabled f).
Proof. apply sset_insert_in. Qed.
Lemma enable_disabled f n x :
  In x (f_disabled (enableRule f n)) <-> x <> n /\ In x (f_disabled f).
Proof.
  simpl. destruct (sset_mem (f_disabled f) n) eqn:E.
  - apply sset_erase_in.
  - split; [|tauto]. intros H. split; auto. intros ->. apply sset_mem_in in H. congruence.
Qed.
Lemma disable_disabled f n x : In x (f_disabled (disableRule f n)) <-> x = n \/ In x (f_disabled f).
Proof. apply sset_insert_in. Qed.
Lemma disable_enabled f n x :
  In x (f_enabled (disableRule f n)) <-> x <> n /\ In x (f_enabled f).
Proof.
  simpl. destruct (sset_mem (f_enabled f) n) eqn:E.
  - apply sset_erase_in.
  - split; [|tauto]. intros H. split; auto. intros ->. apply sset_mem_in in H. congruence.
Qed.

Lemma is_last_snoc reqs r0 r :
  is_last (reqs ++ [r0]) r <-> r = r0 \/ (req_name r0 <> req_name r /\ is_last reqs r).
Proof.
  split.
  - intros (a & b & E & H). destruct b as [|y b] using rev_ind.
    + apply app_inj_tail in E as [_ ->]. auto.
    + clear IHb. rewrite app_comm_cons, app_assoc in E. apply app_inj_tail in E as [E <-].
      right. split.
      * apply H. apply in_app_iff. simpl; auto.
      * exists a, b. split; auto. intros r' Hr. apply H, in_app_iff; auto.
  - intros [->|[Hn (a & b & E & H)]].
    + exists reqs, []. split; [reflexivity|]. intros r' [].
    + exists a, (b ++ [r0]). rewrite E, <- app_assoc. split; [reflexivity|].
      intros r' Hr. apply in_app_iff in Hr as [Hr|[<-|[]]]; auto.
Qed.

Lemma is_last_nil r : ~ is_last [] r.
Proof. intros (a & b & E & _). now destruct a. Qed.

Lemma after_requests_sets reqs n :
  (In n (f_enabled (after_requests reqs)) <-> wanted reqs n)
  /\ (In n (f_disabled (after_requests reqs)) <-> unwanted reqs n).
Proof.
  unfold wanted, unwanted, after_requests.
  induction reqs as [|r reqs IH] using rev_ind.
  - simpl. split; (split; [intros [] | intros H; now apply is_last_nil in H]).
  - rewrite fold_left_app. cbn [fold_left].
    set (f := fold_left request_step reqs f_empty) in *. destruct IH as [I1 I2].
    rewrite !is_last_snoc. destruct r as [m|m]; cbn [request_step req_name].
    + rewrite enable_enabled, enable_disabled, I1, I2. split.
      * split.
        -- intros [->|H]; auto. destruct (str_eq_dec m n) as [->|]; auto.
        -- intros [[= ->]|[_ H]]; auto.
      * split.
        -- intros [Hn H]. right. split; auto.
        -- intros [H|[Hn H]]; [discriminate|]. split; auto.
    + rewrite disable_enabled, disable_disabled, I1, I2. split.
      * split.
        -- intros [Hn H]. right. split; auto.
        -- intros [H|[Hn H]]; [discriminate|]. split; auto.
      * split.
        -- intros [->|H]; auto. destruct (str_eq_dec m n) as [->|]; auto.
        -- intros [[= ->]|[_ H]]; auto.
Qed.

Lemma f_keeps_selected reqs n : f_keeps (after_requests reqs) n = true <-> selected reqs n.
Proof.
  unfold f_keeps, selected. rewrite andb_true_iff, orb_true_iff, negb_true_iff.
  pose proof (after_requests_sets reqs) as S.
  rewrite sset_mem_in. rewrite (proj1 (S n)).
  assert (E : sset_mem (f_disabled (after_requests reqs)) n = false <-> ~ unwanted reqs n).
  { rewrite <- (proj2 (S n)), <- sset_mem_in. destruct (sset_mem _ n); split; congruence. }
  rewrite E. rewrite is_nil_true. split.
  - intros [[He|Hw] Hd]; split; auto. intros [m Hm]. apply (S m) in Hm. rewrite He in Hm. destruct Hm.
  - intros [Hd Hw]. split; auto.
    destruct (f_enabled (after_requests reqs)) as [|m l] eqn:F; [now left|].
    right. apply Hw. exists m. unfold wanted. apply (proj1 (S m)). try rewrite F; now left.
Qed.

Lemma registry_eq rules :
  registry rules = match rules with [] => None | _ => Some (map Some rules) end.
Proof. unfold registry. rewrite register_all. now destruct rules. Qed.

Lemma filtered_loop_eq env f pre rest acc :
  filtered_loop env f (registry (pre ++ rest)) (length rest) (Z.of_nat (length pre)) acc
  = Val (acc ++ filter (fun a => f_keeps f (ri_identifier (env a))) rest).
Proof.
  revert pre acc; induction rest as [|a rest IH]; intros pre acc.
  - simpl. now rewrite app_nil_r.
  - cbn [filtered_loop length].
    assert (G : getRuleAtIndex (registry (pre ++ a :: rest)) (Z.of_nat (length pre)) = Val (Some a)).
    { unfold getRuleAtIndex. rewrite registry_eq.
      destruct (pre ++ a :: rest) as [|x l] eqn:E; [now destruct pre|].
      rewrite <- E. cbn [numberOfRules]. rewrite map_length, app_length. simpl length.
      destruct (Z.of_nat (length pre) >=? Z.of_nat (length pre + S (length rest)))%Z eqn:G.
      { apply Z.geb_le in G. lia. }
      replace (Z.of_nat (length pre) <? 0)%Z with false by (symmetry; apply Z.ltb_ge; lia).
      rewrite Nat2Z.id. f_equal. rewrite map_app. rewrite app_nth2; rewrite map_length; [|lia].
      now rewrite Nat.sub_diag. }
    rewrite G. cbn [obind].
    replace (Z.of_nat (length pre) + 1)%Z with (Z.of_nat (length (pre ++ [a])))
      by (rewrite app_length; simpl; lia).
    replace (pre ++ a :: rest) with ((pre ++ [a]) ++ rest) by (rewrite <- app_assoc; reflexivity).
    rewrite IH. cbn [filter]. destruct (f_keeps f (ri_identifier (env a))); auto.
    rewrite <- app_assoc. reflexivity.
Qed.

Lemma filteredRules_eq env f rules :
  filteredRules env f (registry rules)
  = Val (filter (fun a => f_keeps f (ri_identifier (env a))) rules).
Proof.
  unfold filteredRules.
  assert (numberOfRules (registry rules) = Z.of_nat (length rules)) as ->.
  { rewrite registry_eq. destruct rules; auto. cbn [numberOfRules]. now rewrite map_length. }
  rewrite Nat2Z.id. apply (filtered_loop_eq env f [] rules []).
Qed.

Lemma filter_sublist_where {A} (f : A -> bool) (P : A -> Prop) l :
  (forall x, f x = true <-> P x) -> sublist_where P l (filter f l).
Proof.
  intros H. induction l as [|x l IH]; simpl; [constructor|].
  destruct (f x) eqn:E.
  - constructor; auto. now apply H.
  - constructor; auto. rewrite <- H. congruence.
Qed.

Lemma sublist_where_det {A} (P : A -> Prop) l s1 s2 :
  sublist_where P l s1 -> sublist_where P l s2 -> s1 = s2.
Proof.
  intros H. revert s2. induction H; intros s2 H2; inversion H2; subst; auto; try contradiction.
  f_equal; auto.
Qed.

Lemma sublist_where_ext {A} (P Q : A -> Prop) l s :
  (forall x, In x l -> (P x <-> Q x)) -> sublist_where P l s -> sublist_where Q l s.
Proof.
  intros E H. induction H; [constructor| |].
  - constructor; [|apply IHsublist_where; intros; apply E; simpl; auto]. apply E; simpl; auto.
  - constructor; [|apply IHsublist_where; intros; apply E; simpl; auto].
    intros Hq. apply H. apply E; simpl; auto.
Qed.

Lemma sublist_where_and {A} (P Q : A -> Prop) l s t :
  sublist_where P l s -> sublist_where Q s t -> sublist_where (fun x => P x /\ Q x) l t.
Proof.
  intros H. revert t. induction H; intros t Ht.
  - inversion Ht; subst; constructor.
  - inversion Ht; subst.
    + constructor; auto.
    + apply sw_drop; auto. tauto.
  - apply sw_drop; auto. tauto.
Qed.

(** A request list decides each name. *)
Lemma wanted_unwanted_excl reqs n : wanted reqs n -> unwanted reqs n -> False.
Proof.
  unfold wanted, unwanted. induction reqs as [|r reqs IH] using rev_ind.
  - intros H. now apply is_last_nil in H.
  - rewrite !is_last_snoc. intros [<-|[H1 H2]] [E|[H3 H4]].
    + discriminate.
    + now apply H3.
    + subst r. now apply H1.
    + auto.
Qed.

(** ** Disabling *)
Lemma disable_selected reqs n x :
  selected (reqs ++ [Disable n]) x <->
  x <> n /\ ~ unwanted reqs x /\ ((exists m, m <> n /\ wanted reqs m) -> wanted reqs x).
Proof.
  unfold selected, wanted, unwanted.
  split.
  - intros [H1 H2]. assert (x <> n).
    { intros ->. apply H1. apply is_last_snoc. auto. }
    repeat split; auto.
    + intros Hu. apply H1. apply is_last_snoc. right. split; auto.
    + intros (m & Hm & Hw). assert (is_last (reqs ++ [Disable n]) (Enable x)).
      { apply H2. exists m. apply is_last_snoc. right. split; auto. }
      apply is_last_snoc in H0 as [H0|[_ H0]]; [discriminate | auto].
  - intros (Hn & Hu & Hw). split.
    + intros Hl. apply is_last_snoc in Hl as [Hl|[_ Hl]]; [inversion Hl; congruence | auto].
    + intros (m & Hm). apply is_last_snoc in Hm as [Hm|[Hm1 Hm2]]; [discriminate|].
      apply is_last_snoc. right. split; simpl; auto. apply Hw. exists m. split; auto.
Qed.

(** ** Analyzer *)

Lemma carrier_report_eq s v :
  carrier_report s v = if is_nil (v_path v) then s else s ++ [v].
Proof.
  unfold carrier_report. rewrite carrier_add_eq.
  destruct (str_eq_dec (v_path v) []) as [e|n].
  - now rewrite e.
  - apply is_nil_false in n. rewrite n. now destruct v.
Qed.

Lemma fold_carrier_report l s : fold_left carrier_report l s = s ++ recordable l.
Proof.
  unfold recordable. revert s; induction l as [|v l IH]; intros s; simpl.
  - now rewrite app_nil_r.
  - rewrite IH, carrier_report_eq. destruct (is_nil (v_path v)); simpl; auto.
    now rewrite <- app_assoc.
Qed.

Section AnalyzerProofs.
  Context {CTX ST : Type}.
  Variable takeoff : nat -> CTX -> ST -> outcome (list violation * ST).

  Lemma rules_loop_run rules ctx st per_rule st' s :
    unit_run takeoff rules ctx st per_rule st' ->
    rules_loop takeoff rules ctx s st = Val (s ++ recordable (concat per_rule), st').
  Proof.
    intros H. revert s. induction H; intros s; simpl.
    - now rewrite app_nil_r.
    - rewrite H. simpl. rewrite IHunit_run, fold_carrier_report, <- app_assoc.
      unfold recordable. now rewrite <- filter_app.
  Qed.

  Lemma rules_loop_val rules ctx s st s' st' :
    rules_loop takeoff rules ctx s st = Val (s', st') ->
    exists per_rule, unit_run takeoff rules ctx st per_rule st'.
  Proof.
    revert s st; induction rules as [|a rules IH]; intros s st H; simpl in H.
    - inversion H; subst. exists []. constructor.
    - destruct (takeoff a ctx st) as [[reports st1]| |] eqn:E; simpl in H; try discriminate.
      destruct (IH _ _ H) as [pr Hpr]. exists (reports :: pr). econstructor; eauto.
  Qed.

  Lemma analyze_run rules contexts st all st' c :
    units_run takeoff rules contexts st all st' ->
    analyze takeoff rules contexts c st
    = ({| c_collection := c_collection c ++ map (fun pr => recordable (concat pr)) all;
          c_errors := c_errors c; c_warnings := c_warnings c; c_bugs := c_bugs c |}, Val st').
  Proof.
    intros H. revert c. induction H; intros c.
    - simpl. rewrite app_nil_r. now destruct c.
    - cbn [analyze]. rewrite (rules_loop_run _ _ _ _ _ [] H). cbn [app].
      rewrite IHunits_run. cbn. now rewrite <- app_assoc.
  Qed.

  Lemma analyze_val rules contexts st c c' st' :
    analyze takeoff rules contexts c st = (c', Val st') ->
    exists all, units_run takeoff rules contexts st all st'.
  Proof.
    revert st c; induction contexts as [|ctx contexts IH]; intros st c H; simpl in H.
    - inversion H; subst. exists []. constructor.
    - destruct (rules_loop takeoff rules ctx [] st) as [[s st1]| |] eqn:E; try discriminate.
      destruct (IH _ _ H) as [all Hall]. destruct (rules_loop_val _ _ _ _ _ _ E) as [pr Hpr].
      exists (pr :: all). econstructor; eauto.
  Qed.

  Lemma analyze_exc rules contexts st c c' w :
    analyze takeoff rules contexts c st = (c', Exc w) ->
    exists pre ctx post all st1,
      contexts = pre ++ ctx :: post
      /\ units_run takeoff rules pre st all st1
      /\ c' = {| c_collection := c_collection c ++ map (fun pr => recordable (concat pr)) all;
                 c_errors := c_errors c; c_warnings := c_warnings c; c_bugs := c_bugs c |}
      /\ (forall pr st2, ~ unit_run takeoff rules ctx st1 pr st2).
  Proof.
    revert st c; induction contexts as [|ctx contexts IH]; intros st c H; simpl in H;
      [discriminate|].
    destruct (rules_loop takeoff rules ctx [] st) as [[s st1]|w1|] eqn:E; try discriminate.
    - destruct (IH _ _ H) as (pre & x & post & all & st2 & -> & Hu & Hc & Hn).
      destruct (rules_loop_val _ _ _ _ _ _ E) as [pr Hpr].
      exists (ctx :: pre), x, post, (pr :: all), st2. split; [reflexivity|].
      split; [econstructor; eauto|]. split; auto.
      rewrite Hc. cbn. rewrite (rules_loop_run _ _ _ _ _ [] Hpr) in E.
      inversion E; subst. now rewrite <- app_assoc.
    - inversion H; subst. exists [], ctx, contexts, [], st. split; [reflexivity|].
      split; [constructor|]. split.
      + cbn. rewrite app_nil_r. now destruct c'.
      + intros pr st2 Hr. rewrite (rules_loop_run _ _ _ _ _ [] Hr) in E. discriminate.
  Qed.

  Lemma unit_run_length rules ctx st pr st' :
    unit_run takeoff rules ctx st pr st' -> length pr = length rules.
  Proof. induction 1; simpl; congruence. Qed.

  Lemma units_run_length rules contexts st all st' :
    units_run takeoff rules contexts st all st' -> length all = length contexts.
  Proof. induction 1; simpl; congruence. Qed.

  (** Analysing units in two batches or in one is the same. *)
  Lemma analyze_app rules a b c st :
    analyze takeoff rules (a ++ b) c st
    = match analyze takeoff rules a c st with
      | (c', Val st') => analyze takeoff rules b c' st'
      | (c', Exc w) => (c', Exc w)
      | (c', UB) => (c', UB)
      end.
  Proof.
    revert c st; induction a as [|x a IH]; intros c st; [reflexivity|].
    cbn [analyze app]. destruct (rules_loop takeoff rules x [] st) as [[s st1]| |]; auto.
  Qed.
End AnalyzerProofs.
