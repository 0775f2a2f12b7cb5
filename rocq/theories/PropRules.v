(** * C52: size rules; C53: what a rule records for a whole unit *)
From Verif Require Import Base BaseFacts ModelResults ModelConfig ModelSource ModelAST ModelRules SpecFilter
  SpecSource SpecAST SpecRules ProofFilter ProofSource ProofAST ProofRules PropSource PropAST.
Local Arguments lit : simpl never.

Lemma declaration_iff n : isDecl n = true <-> declaration n.
Proof.
  unfold isDecl, declaration. split.
  - destruct (n_shape n); try discriminate; intros _; eauto 9.
  - intros [(? & ? & ->)|[(? & ? & ? & ->)|[(? & ? & ? & ->)|[(? & ? & ->)|[(? & ? & ->)|(? & ->)]]]]]; reflexivity.
Qed.
(** ** C53, recording *)
Section Recording.
  Context (e : env) (rule : nat) (attr : str).
  Lemma add_report_step hist vs r : same_comments (e_unit e) hist -> exists hist',
    same_comments (e_unit e) hist'
    /\ ((recorded e attr r
         /\ add_report e rule attr (vs, ask_all hist sc_fresh) r
            = (vs ++ [violation_of e rule r], ask_all hist' sc_fresh))
        \/ (~ recorded e attr r
            /\ add_report e rule attr (vs, ask_all hist sc_fresh) r = (vs, ask_all hist' sc_fresh))).
  Proof.
    intros Hh. unfold add_report, recorded, hidden. cbn [fst snd]. setoid_rewrite <- declaration_iff.
    set (i := n_id (rp_node r)).
    assert (X : exists h, h = (if isDecl (rp_node r) then shouldSuppress_decl (e_decl e i) (e_parents e i) (Some attr)
                       else shouldSuppress_stmt (e_parents e i) (Some attr))
      /\ (h = true <-> (isDecl (rp_node r) = true /\ suppresses (e_decl e i) attr)
                       \/ (exists d, on_chain (e_parents e i) d /\ suppresses d attr))).
    { eexists; split; [reflexivity|]. destruct (isDecl (rp_node r)).
      - rewrite c42_decl_hidden_iff. tauto.
      - rewrite c42_stmt_hidden_iff. split; auto. intros [[K _]|K]; [discriminate|auto]. }
    destruct X as (h & Eh & Hiff).
    destruct h.
    - exists hist. split; auto. right. split; [intros [K _]; apply K; tauto|].
      unfold addViolation_decl, addViolation_stmt.
      destruct (isDecl (rp_node r)); rewrite <- Eh; reflexivity.
    - set (u := e_unit e). set (l := e_loc e i).
      set (q := {| q_line := l_line l; q_unit := u; q_rule := None |}).
      exists (hist ++ [q]). split.
      { intros x Hx. apply in_app_or in Hx as [Hx|[<-|[]]]; auto. }
      destruct (c43_recorded_unless_commented hist u l rule (rp_message r) vs Hh) as [A B].
      assert (E : addViolation_loc u l rule (rp_message r) vs (ask_all hist sc_fresh)
        = (fst (addViolation_loc u l rule (rp_message r) vs (ask_all hist sc_fresh)), ask_all (hist ++ [q]) sc_fresh)).
      { rewrite ask_all_app. cbn [ask_all q_line q_unit q_rule q]. unfold addViolation_loc.
        destruct (shouldSuppress_line (l_line l) u None (ask_all hist sc_fresh)) as [[|] sc']; reflexivity. }
      assert (F : (if isDecl (rp_node r)
          then addViolation_decl u (Some (e_decl e i, e_parents e i, l)) rule attr (rp_message r) vs (ask_all hist sc_fresh)
          else addViolation_stmt u (Some (e_parents e i, l)) rule attr (rp_message r) vs (ask_all hist sc_fresh))
        = addViolation_loc u l rule (rp_message r) vs (ask_all hist sc_fresh)).
      { unfold addViolation_decl, addViolation_stmt. destruct (isDecl (rp_node r)); rewrite <- Eh; reflexivity. }
      fold u l. rewrite F, E.
      destruct (comment_on_dec u (l_line l)) as [C|C].
      + right. split; [tauto|]. now rewrite A by auto.
      + destruct (str_eq_dec (l_path l) []) as [P|P].
        * right. split; [tauto|]. now rewrite A by auto.
        * left. split; [split; [|exact P]; intros K; assert (false = true) by (apply Hiff; tauto); discriminate|].
          now rewrite B by auto.
  Qed.
  Lemma add_reports rs : forall hist vs, same_comments (e_unit e) hist -> exists hist' kept,
    same_comments (e_unit e) hist'
    /\ sublist_where (recorded e attr) rs kept
    /\ fold_left (add_report e rule attr) rs (vs, ask_all hist sc_fresh)
       = (vs ++ map (violation_of e rule) kept, ask_all hist' sc_fresh).
  Proof.
    induction rs as [|r rs IH]; intros hist vs Hh; cbn [fold_left].
    - exists hist, []. split; auto. split; [constructor|]. cbn [map]. now rewrite app_nil_r.
    - destruct (add_report_step hist vs r Hh) as (h1 & H1 & [[R E]|[R E]]); rewrite E.
      + destruct (IH h1 (vs ++ [violation_of e rule r]) H1) as (h2 & k & H2 & S & F).
        exists h2, (r :: k). split; auto. split; [now constructor|].
        etransitivity; [exact F|]. cbn [map]. now rewrite <- app_assoc.
      + destruct (IH h1 vs H1) as (h2 & k & H2 & S & F).
        exists h2, k. split; auto. split; [now constructor|]. exact F.
  Qed.
End Recording.

Lemma perform_sel e rule attr visit tops (sel : list (top * node)) st :
  NoDup (map (fun t => t_id (fst t)) tops) -> (forall x, In x sel -> In x tops) ->
  perform e rule attr visit tops (inspects (map fst sel)) st
  = fold_left (add_report e rule attr) (flat_map visit (flat_map (fun t => nodes (snd t)) sel)) st.
Proof.
  intros Hn Hs. unfold inspects. cbn [app perform].
  revert st. induction sel as [|[t root] sel IH]; intros st; [reflexivity|].
  cbn [map app perform flat_map fst snd].
  assert (F : find (fun t0 => t_id (fst t0) =? t_id t) tops = Some (t, root)).
  { assert (I : In (t, root) tops) by (apply Hs; simpl; auto).
    clear - Hn I. induction tops as [|a l IH]; [destruct I|]. cbn [map] in Hn. inversion Hn; subst.
    cbn [find]. destruct I as [->|I].
    - cbn [fst]. now rewrite Nat.eqb_refl.
    - destruct (t_id (fst a) =? t_id t) eqn:E; [|now apply IH].
      apply Nat.eqb_eq in E. exfalso. apply H1. rewrite E.
      apply (in_map (fun t => t_id (fst t))) in I. exact I. }
  rewrite F. rewrite IH by (intros; apply Hs; simpl; auto).
  rewrite traverse_rule_nodes, flat_map_app, fold_left_app. reflexivity.
Qed.

Lemma sublist_where_map {A B} (f : A -> B) (P : B -> Prop) l : forall s,
  sublist_where P (map f l) s -> exists s', sublist_where (fun x => P (f x)) l s' /\ s = map f s'.
Proof.
  induction l as [|a l IH]; intros s H; inversion H; subst.
  - exists []. split; constructor.
  - destruct (IH _ H4) as (s' & K & ->). exists (a :: s'). split; [now constructor|reflexivity].
  - destruct (IH _ H4) as (s' & K & ->). exists s'. split; [now constructor|reflexivity].
Qed.
Lemma sublist_where_in {A} (P : A -> Prop) l s x : sublist_where P l s -> In x s -> In x l.
Proof. induction 1; simpl; intros; tauto. Qed.
Lemma sublist_where_none {A} (P : A -> Prop) l : (forall x, ~ P x) -> sublist_where P l [].
Proof. intros H. induction l; constructor; auto. Qed.

Lemma visited_sel lo supported attrs (tops sel : list (top * node)) :
  sublist_where (fun t => inspected lo supported attrs (fst t)) tops sel ->
  applyVisitor lo supported attrs (map fst tops) = inspects (map fst sel)
  \/ (sel = [] /\ applyVisitor lo supported attrs (map fst tops) = []).
Proof.
  intros Hs.
  destruct (lo_cuda lo) eqn:Ec.
  - left. destruct (c46_cuda_units lo supported attrs (map fst tops) Ec) as (s & Hs' & ->).
    apply sublist_where_map in Hs' as (s' & Hs' & ->). do 2 f_equal.
    eapply sublist_where_det; [|exact Hs].
    eapply sublist_where_ext; [|exact Hs']. intros x. unfold inspected. rewrite Ec. intuition congruence.
  - destruct (c45_language_gating lo supported attrs (map fst tops) Ec) as [Y N].
    assert (D : ((exists l, language_of lo l /\ supports supported l) /\ supports_host attrs)
                \/ ~ ((exists l, language_of lo l /\ supports supported l) /\ supports_host attrs)).
    { unfold supports_host. rewrite <- lang_iff.
      destruct (isLanguageSupported lo supported), (N.testbit attrs 0); intuition congruence. }
    destruct D as [D|D].
    + left. destruct (Y D) as (s & Hs' & ->).
      apply sublist_where_map in Hs' as (s' & Hs' & ->). do 2 f_equal.
      eapply sublist_where_det; [|exact Hs].
      eapply sublist_where_ext; [|exact Hs']. intros x. unfold inspected. rewrite Ec. intuition congruence.
    + right. split; [|now apply N]. eapply sublist_where_det; [exact Hs|].
      apply sublist_where_none. intros x. unfold inspected. rewrite Ec. intuition congruence.
Qed.
(** For every rule of the visitor kind, unit, and history of the suppression cache: the rule
    adds, behind what was recorded before, one violation per report on a node of an inspected
    declaration, in order, except those that are hidden or have no file. *)
Theorem c53_records_every_report : forall e lo supported attrs rule attr visit tops vs hist sel,
  NoDup (map (fun t => t_id (fst t)) tops) ->
  same_comments (e_unit e) hist ->
  sublist_where (fun t => inspected lo supported attrs (fst t)) tops sel ->
  exists kept sc',
    sublist_where (recorded e attr) (flat_map visit (flat_map (fun t => nodes (snd t)) sel)) kept
    /\ apply_rule e lo supported attrs rule attr visit tops (vs, ask_all hist sc_fresh)
       = (vs ++ map (violation_of e rule) kept, sc').
Proof.
  intros e lo supported attrs rule attr visit tops vs hist sel Hn Hh Hs. unfold apply_rule.
  pose proof (visited_sel lo supported attrs tops sel Hs) as A.
  destruct A as [->|[-> ->]].
  - rewrite perform_sel; auto.
    + destruct (add_reports e rule attr (flat_map visit (flat_map (fun t => nodes (snd t)) sel)) hist vs Hh)
        as (h' & k & _ & S & E). eauto.
    + intros x. now apply (sublist_where_in _ _ _ _ Hs).
  - exists [], (ask_all hist sc_fresh). split; [constructor|]. cbn [perform map]. now rewrite app_nil_r.
Qed.
(** Which declarations and reports these are is determined. *)
Theorem c53_selection_exists : forall lo supported attrs (tops : list (top * node)),
  exists! sel, sublist_where (fun t => inspected lo supported attrs (fst t)) tops sel.
Proof.
  intros lo supported attrs tops.
  assert (D : forall t, inspected lo supported attrs t \/ ~ inspected lo supported attrs t).
  { intros t. unfold inspected, cuda_relevant, supports_kernels, supports_host. rewrite <- lang_iff.
    unfold in_main. destruct (lo_cuda lo), (t_validLoc t), (t_inMainFile t), (isLanguageSupported lo supported),
      (N.testbit attrs 0), (N.testbit attrs 1), (t_kind t) as [[|]|]; intuition congruence. }
  destruct (sublist_exists (fun t => inspected lo supported attrs (fst t)) (fun t => D (fst t)) tops) as (s & Hs).
  exists s. split; auto. intros s' Hs'. eapply sublist_where_det; eauto.
Qed.

(** A unit with a commented line, an annotated function and a function from a header. *)
Definition ex_env : env :=
  {| e_unit := exu;
     e_decl := fun i => if i =? 1 then Decl [$"oclint:suppress[r]"] None else Decl [] None;
     e_parents := fun i => if i =? 9 then Parents PStmt (Parents (PDecl (Decl [] None)) NoParent []) [] else NoParent;
     e_loc := fun i => {| l_path := $"a.c"; l_line := Z.of_nat i; l_column := 1; l_endLine := Z.of_nat i; l_endColumn := 2 |} |}.
Definition ex_visit (n : node) : list report :=
  match n_shape n with
  | FunctionDecl _ _ _ | ReturnStmt _ => [Report n $"m"]
  | _ => []
  end.
Definition ex_function (i : nat) (inMain : bool) : top * node :=
  ({| t_id := i; t_validLoc := true; t_inMainFile := inMain; t_kind := TFunction false |},
   nd i (FunctionDecl {| f_name := $"f"; f_method := None; f_isDefinition := true; f_bodyLines := 1 |} []
           (Some (nd (i + 20) (CompoundStmt [nd (i + 8) (ReturnStmt None)]))))).
Definition ex_tops := [ex_function 1 true; ex_function 2 false; ex_function 5 true].
Example c53_record_case :
  let lo := {| lo_objc := false; lo_cxx := true; lo_c99 := false; lo_cuda := false |} in
  NoDup (map (fun t => t_id (fst t)) ex_tops) /\ same_comments (e_unit ex_env) []
  /\ map v_startLine (fst (apply_rule ex_env lo 7 1 4 $"r" ex_visit ex_tops ([], sc_fresh))) = [9%Z; 5%Z; 13%Z].
Proof.
  split; [|split; [|vm_compute; reflexivity]].
  - cbn. repeat constructor; cbn; intuition discriminate.
  - intros q [].
Qed.

(** ** C52 *)
Theorem c52_strictly_above_limit : forall k c c' T root rs,
  k <> SParameters ->
  intForKey c (size_key k) (size_default k) = Val (T, c') ->
  size_rule k c root = Val rs ->
  strictly_above k T root rs.
Proof.
  intros k c c' T root rs Hk HT H. apply (size_rule_nodes k c c' T root rs HT) in H. subst rs.
  replace (size_limit k T) with T by now destruct k.
  replace (size_shown k T) with T by now destruct k.
  apply above_spec.
Qed.
Lemma size_default_int k : in_int (size_default k).
Proof. destruct k; split; cbv; discriminate. Qed.
Theorem c52_parameters_above_limit : forall c c' T root rs,
  (0 <= T)%Z ->
  intForKey c (size_key SParameters) (size_default SParameters) = Val (T, c') ->
  size_rule SParameters c root = Val rs ->
  strictly_above SParameters T root rs.
Proof.
  intros c c' T root rs H0 HT H. apply (size_rule_nodes _ c c' T root rs HT) in H. subst rs.
  apply intForKey_range in HT; [|apply size_default_int].
  assert (E : to_unsigned T = T).
  { unfold to_unsigned. apply Z.mod_small. unfold in_int, INT_MAX in HT. lia. }
  assert (F : int_of_unsigned T = T).
  { unfold int_of_unsigned. destruct HT as [_ HT]. apply Z.leb_le in HT. now rewrite HT. }
  cbn [size_limit size_shown]. rewrite E, F. apply above_spec.
Qed.
(** Every rule but the one on path complexity always completes; that one completes unless the
    metric overflows. *)
Theorem c52_size_rules_complete : forall k c c' T root,
  k <> SNPath -> intForKey c (size_key k) (size_default k) = Val (T, c') -> exists rs, size_rule k c root = Val rs.
Proof. intros. eapply size_rule_total; eauto. Qed.
(** The measure of a node is unique, so "strictly above" decides each node. *)
Theorem c52_measure_unique : forall k n m1 a1 b1 m2 a2 b2,
  measured k n m1 a1 b1 -> measured k n m2 a2 b2 -> m1 = m2 /\ a1 = a2 /\ b1 = b2.
Proof.
  intros k n m1 a1 b1 m2 a2 b2 H1 H2. apply measured_F in H1. apply measured_F in H2.
  rewrite H1 in H2. now injection H2.
Qed.
(** Finding: a negative limit for parameters turns the rule off. *)
Theorem c52_negative_parameter_limit : forall c c' T root,
  (T < 0)%Z ->
  intForKey c (size_key SParameters) (size_default SParameters) = Val (T, c') ->
  (forall n m a b, below root n -> measured SParameters n m a b -> (m <= INT_MAX)%Z) ->
  size_rule SParameters c root = Val [].
Proof.
  intros c c' T root H0 HT Hm.
  destruct (size_rule_total SParameters c c' T root) as [rs H]; [discriminate|exact HT|]. rewrite H. f_equal.
  apply (size_rule_nodes _ c c' T root rs HT) in H. subst rs.
  apply intForKey_range in HT; [|apply size_default_int]. cbn [size_limit size_shown].
  assert (E : (INT_MAX < to_unsigned T)%Z).
  { unfold to_unsigned. rewrite <- (Z.mod_add T 1) by lia. unfold in_int, INT_MAX, INT_MIN in *. rewrite Z.mod_small; lia. }
  assert (G : forall l, (forall n, In n l -> below root n) ->
    flat_map (above SParameters (to_unsigned T) (int_of_unsigned (to_unsigned T))) l = []).
  { induction l as [|n l IH]; intros I; [reflexivity|]. cbn [flat_map].
    rewrite IH by (intros x Hx; apply I; right; exact Hx). unfold above.
    destruct (measureF SParameters n) as [[[m a] b]|] eqn:M; [|reflexivity]. apply measured_F in M.
    specialize (Hm n m a b (I n (or_introl eq_refl)) M). destruct (m >? to_unsigned T)%Z eqn:X; [|reflexivity].
    apply Z.gtb_lt in X. lia. }
  apply G. intros n I. apply c53_nodes_complete. exact I.
Qed.
Theorem c52_negative_parameter_limit_strict_refuted : exists c c' T root rs,
  intForKey c (size_key SParameters) (size_default SParameters) = Val (T, c')
  /\ size_rule SParameters c root = Val rs
  /\ ~ strictly_above SParameters T root rs.
Proof.
  exists (addConfiguration cfg_fresh $"TOO_MANY_PARAMETERS" $"-1").
  exists (addConfiguration cfg_fresh $"TOO_MANY_PARAMETERS" $"-1"), (-1)%Z, (snd (ex_function 1 true)), [].
  split; [vm_compute; reflexivity|]. split; [vm_compute; reflexivity|].
  intros (sel & Hs & Hf). inversion Hf; subst. inversion Hs; subst. apply H1.
  exists 0%Z, $"Method with ", $" parameters". split; [|lia].
  change 0%Z with (Z.of_nat (length (@nil node))). eapply me_function_params. reflexivity.
Qed.
(** At the limit nothing is reported; below it the function is, with both numbers. *)
Example c52_case :
  let run limit k := size_rule k (addConfiguration cfg_fresh (size_key k) limit) ex_fun in
  run $"8" SNPath = Val []
  /\ run $"6" SCyclomatic = Val []
  /\ exists r, run $"5" SCyclomatic = Val [r]
       /\ rp_message r = $"Cyclomatic Complexity Number 6 exceeds limit of 5".
Proof.
  cbv zeta. split; [vm_compute; reflexivity|]. split; [vm_compute; reflexivity|].
  eexists. split; [vm_compute; reflexivity|]. vm_compute. reflexivity.
Qed.
Example c52_defaults : map size_default [SCyclomatic; SNcss; SNPath; SDepth; SMethodLines; SClassLines; SFields; SMethods; SParameters]
  = [10; 30; 200; 5; 50; 1000; 20; 30; 10]%Z.
Proof. reflexivity. Qed.

Print Assumptions c53_records_every_report.
Print Assumptions c53_selection_exists.
Print Assumptions c52_strictly_above_limit.
Print Assumptions c52_parameters_above_limit.
Print Assumptions c52_size_rules_complete.
Print Assumptions c52_measure_unique.
Print Assumptions c52_negative_parameter_limit.
Print Assumptions c52_negative_parameter_limit_strict_refuted.
