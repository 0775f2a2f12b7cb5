(** * Lemmas about rule running and the size rules *)
From Verif Require Import Base BaseFacts ModelResults ModelConfig ModelSource ModelAST ModelRules SpecFilter
  ProofFilter SpecAST ProofAST SpecSource ProofSource SpecRules.
Local Arguments lit : simpl never.

Lemma reports_nodes f n : reports f n = flat_map f (nodes n).
Proof. apply collect_nodes. Qed.

Lemma sublist_flat_map (pat : node -> Prop) (rep : node -> report) (f : node -> list report) l :
  (forall n, In n l -> pat n /\ f n = [rep n] \/ ~ pat n /\ f n = []) ->
  exists sel, sublist_where pat l sel /\ flat_map f l = map rep sel.
Proof.
  induction l as [|a l IH]; intros H; [exists []; split; [constructor|reflexivity]|].
  destruct IH as (sel & S & E); [intros; apply H; simpl; auto|].
  destruct (H a) as [[P F]|[P F]]; [simpl; auto| |]; simpl; rewrite F, E.
  - exists (a :: sel). split; [now constructor|reflexivity].
  - exists sel. split; [now constructor|reflexivity].
Qed.
Lemma reports_exactly_intro pat rep f root :
  (forall n, pat n /\ f n = [rep n] \/ ~ pat n /\ f n = []) -> reports_exactly pat rep root (reports f root).
Proof. intros H. unfold reports_exactly. rewrite reports_nodes. now apply sublist_flat_map. Qed.
Lemma reports_per_node_intro (P : node -> list report -> Prop) f root :
  (forall n, P n (f n)) -> reports_per_node P root (reports f root).
Proof.
  intros H. exists (map f (nodes root)). rewrite reports_nodes. split; [|apply flat_map_concat_map].
  induction (nodes root); simpl; constructor; auto.
Qed.

(** ** Size rules *)
Definition kindstr (o : objccontainer) : str :=
  match oc_kind o with
  | OKInterface => $"interface" | OKCategory => $"category" | OKProtocol => $"protocol"
  | OKImplementation | OKCategoryImpl => $"implementation"
  end.
Definition measureF (k : sizekind) (n : node) : option (Z * str * str) :=
  match k, n_shape n with
  | SCyclomatic, FunctionDecl _ _ _ | SCyclomatic, ObjCMethodDecl _ _ _ =>
      Some (getCyclomaticComplexity n, $"Cyclomatic Complexity Number ", [])
  | SNcss, FunctionDecl _ _ _ | SNcss, ObjCMethodDecl _ _ _ =>
      Some (getNcssCount n, $"Method of ", $" non-commenting source statements")
  | SNPath, FunctionDecl _ _ (Some b) | SNPath, ObjCMethodDecl _ _ (Some b) =>
      if is_brace b then Some (npZ b, $"NPath Complexity Number ", []) else None
  | SDepth, CompoundStmt _ => Some (Z.of_nat (depth n), $"Block depth of ", [])
  | SMethodLines, FunctionDecl fi _ (Some b) =>
      if match f_method fi with Some m => cm_inRecord m | None => false end then None
      else Some (f_bodyLines fi, $"Method with ", $" lines")
  | SMethodLines, ObjCMethodDecl mi _ (Some b) => Some (om_bodyLines mi, $"Method with ", $" lines")
  | SClassLines, CXXRecordDecl r _ => Some (r_lines r, $"C++ class with ", $" lines")
  | SClassLines, ObjCContainerDecl o _ =>
      Some (oc_lines o, $"Objective-C " ++ kindstr o ++ $" with ", $" lines")
  | SFields, CXXRecordDecl r _ => Some (Z.of_nat (r_fields r), $"C++ class with ", $" fields")
  | SFields, ObjCContainerDecl o _ =>
      match oc_kind o with
      | OKInterface => Some (Z.of_nat (oc_ivars o), $"Objective-C interface with ", $" fields")
      | _ => None
      end
  | SMethods, CXXRecordDecl r _ => Some (Z.of_nat (r_methods r), $"C++ class with ", $" methods")
  | SMethods, ObjCContainerDecl o _ =>
      match oc_kind o with
      | OKImplementation | OKCategoryImpl =>
          Some (Z.of_nat (length (oc_methods o)), $"Objective-C implementation with ", $" methods")
      | _ => None
      end
  | SParameters, FunctionDecl _ ps (Some b) | SParameters, ObjCMethodDecl _ ps (Some b) =>
      Some (Z.of_nat (length ps), $"Method with ", $" parameters")
  | _, _ => None
  end.

Lemma ccn_exists n : exists sel, sublist_where decision_point (nodes n) sel
  /\ getCyclomaticComplexity n = (1 + Z.of_nat (length sel))%Z.
Proof.
  destruct (sublist_exists decision_point) with (l := nodes n) as (sel & H).
  { intros x. destruct (ccn_visit_spec x) as [[_ ?]|[_ ?]]; auto. }
  exists sel. split; auto. now rewrite ccn_nodes, (ccn_count _ _ H).
Qed.
Lemma ncss_exists n : exists l, spread controlled n l /\ ncss n = sum (map own_ncss l).
Proof.
  destruct (spread_total controlled controlled_kids n) as (l & H). exists l. split; auto.
  eapply spread_weight; eauto using controlled_kids, ncss_eq.
Qed.
Lemma getBody_iff n b : getBody n = Some b <-> has_body n b.
Proof.
  unfold has_body. destruct n as [i t s]. destruct s; cbn; split; intros H; try discriminate;
    try (destruct H as [(f & ps & H)|(m & ps & H)]; discriminate H).
  - subst. left. eauto.
  - destruct H as [(f & ps & H)|(m & ps & H)]; try discriminate. now injection H.
  - subst. right. eauto.
  - destruct H as [(f & ps & H)|(m & ps & H)]; try discriminate. now injection H.
Qed.
Lemma is_brace_iff n : is_brace n = true <-> compound n.
Proof.
  unfold is_brace, compound. destruct n as [i t s]. destruct s; cbn; split; intros H; try discriminate; eauto;
    destruct H as (l & H); discriminate.
Qed.

Lemma measured_F k n m a b : measured k n m a b <-> measureF k n = Some (m, a, b).
Proof.
  split.
  - intros H. inversion H; subst; unfold measureF.
    + destruct (ccn_exists n) as (sel' & S' & E). rewrite E.
      assert (length sel = length sel') as -> by (rewrite <- (ccn_count _ _ H1); apply ccn_count; auto).
      destruct H0 as [(f & ps & bd & ->)|(f & ps & bd & ->)]; reflexivity.
    + assert (E : getNcssCount n = (1 + sum (map own_ncss l))%Z).
      { unfold getNcssCount. rewrite (proj2 (getBody_iff n b0)) by auto.
        rewrite (spread_weight controlled own_ncss ncss controlled_kids ncss_eq _ _ H1). lia. }
      rewrite E. destruct H0 as [(f & ps & ->)|(f & ps & ->)]; reflexivity.
    + assert (E : getNcssCount n = 0%Z).
      { unfold getNcssCount. destruct (getBody n) eqn:G; auto. apply getBody_iff in G. exfalso. eapply H1; eauto. }
      rewrite E. destruct H0 as [(f & ps & bd & ->)|(f & ps & bd & ->)]; reflexivity.
    + apply paths_npZ in H2. subst. apply is_brace_iff in H1.
      destruct H0 as [(f & ps & ->)|(f & ps & ->)]; now rewrite H1.
    + destruct H0 as (l & ->). assert (braces p = depth n) as ->; [|reflexivity].
      destruct (depth_reached n) as (q & Hq & Eq). pose proof (H2 q Hq). pose proof (depth_bound n p H1). lia.
    + rewrite H0. destruct (f_method fi) as [cm|] eqn:E; [rewrite (H1 cm eq_refl)|]; reflexivity.
    + now rewrite H0.
    + now rewrite H0.
    + rewrite H0. unfold kind_text in H1. unfold kindstr. destruct (oc_kind o); subst; reflexivity.
    + now rewrite H0.
    + rewrite H0. now rewrite H1.
    + now rewrite H0.
    + rewrite H0. destruct H1 as [-> | ->]; reflexivity.
    + now rewrite H0.
    + now rewrite H0.
  - unfold measureF. intros H. destruct n as [i t s].
    assert (SS : forall s', n_shape (Node i t s') = s') by reflexivity.
    destruct k, s; cbn [n_shape] in H; try discriminate H.
    + injection H as <- <- <-. destruct (ccn_exists (Node i t (FunctionDecl info params body))) as (sel & S & ->).
      apply me_ccn; auto. left. unfold n_shape. eauto.
    + injection H as <- <- <-. destruct (ccn_exists (Node i t (ObjCMethodDecl info params body))) as (sel & S & ->).
      apply me_ccn; auto. right. unfold n_shape. eauto.
    + injection H as <- <- <-. unfold getNcssCount. destruct body as [bd|]; cbn [getBody n_shape].
      * destruct (ncss_exists bd) as (l & S & ->). rewrite Z.add_comm. eapply me_ncss; eauto.
        left. unfold n_shape. eauto.
      * apply me_ncss_none; [left; unfold n_shape; eauto|].
        intros b' [(f & ps & E)|(f & ps & E)]; discriminate E.
    + injection H as <- <- <-. unfold getNcssCount. destruct body as [bd|]; cbn [getBody n_shape].
      * destruct (ncss_exists bd) as (l & S & ->). rewrite Z.add_comm. eapply me_ncss; eauto.
        right. unfold n_shape. eauto.
      * apply me_ncss_none; [right; unfold n_shape; eauto|].
        intros b' [(f & ps & E)|(f & ps & E)]; discriminate E.
    + destruct body as [bd|]; [|discriminate]. destruct (is_brace bd) eqn:B; [|discriminate].
      injection H as <- <- <-. apply me_npath with (b := bd); [|now apply is_brace_iff|apply paths_intro].
      left. unfold n_shape. eauto.
    + destruct body as [bd|]; [|discriminate]. destruct (is_brace bd) eqn:B; [|discriminate].
      injection H as <- <- <-. apply me_npath with (b := bd); [|now apply is_brace_iff|apply paths_intro].
      right. unfold n_shape. eauto.
    + injection H as <- <- <-. destruct (depth_reached (Node i t (CompoundStmt body))) as (p & Hp & Ep).
      change (measured SDepth (Node i t (CompoundStmt body)) (Z.of_nat (depth (Node i t (CompoundStmt body)))) $"Block depth of " []).
      rewrite <- Ep. apply me_depth; auto.
      * eexists; reflexivity.
      * intros q Hq. rewrite Ep. now apply depth_bound.
    + destruct body as [bd|]; [|discriminate].
      destruct (match f_method info with Some m => cm_inRecord m | None => false end) eqn:E; [discriminate|].
      injection H as <- <- <-. eapply me_function_lines; [reflexivity|]. intros m' Hm. now rewrite Hm in E.
    + destruct body as [bd|]; [|discriminate]. injection H as <- <- <-. eapply me_objc_lines. reflexivity.
    + injection H as <- <- <-. eapply me_cxx_class. reflexivity.
    + injection H as <- <- <-. eapply me_objc_class; [reflexivity|].
      unfold kind_text, kindstr. destruct (oc_kind info); reflexivity.
    + injection H as <- <- <-. eapply me_cxx_fields. reflexivity.
    + destruct (oc_kind info) eqn:E; try discriminate. injection H as <- <- <-.
      eapply me_objc_fields; [reflexivity|auto].
    + injection H as <- <- <-. eapply me_cxx_methods. reflexivity.
    + destruct (oc_kind info) eqn:E; try discriminate; injection H as <- <- <-;
        (eapply me_objc_methods; [reflexivity|]); [left|right]; auto.
    + destruct body as [bd|]; [|discriminate]. injection H as <- <- <-. eapply me_function_params. reflexivity.
    + destruct body as [bd|]; [|discriminate]. injection H as <- <- <-. eapply me_objc_params. reflexivity.
Qed.

(** What a visit contributes, uniformly. *)
Definition above (k : sizekind) (T shown : Z) (n : node) : list report :=
  match measureF k n with
  | Some (m, a, b) => if (m >? T)%Z then [Report n (a ++ show_Z m ++ b ++ $" exceeds limit of " ++ show_Z shown)] else []
  | None => []
  end.
Lemma above_spec k T root : strictly_above k T root (flat_map (above k T T) (nodes root)).
Proof.
  unfold strictly_above.
  assert (G : forall l, exists sel,
    sublist_where (fun n => exists m a b, measured k n m a b /\ (T < m)%Z) l sel
    /\ Forall2 (fun n r => exists m a b, measured k n m a b
       /\ r = Report n (a ++ show_Z m ++ b ++ $" exceeds limit of " ++ show_Z T)) sel (flat_map (above k T T) l)).
  { induction l as [|x l (sel & S & F)]; [exists []; split; constructor|].
    cbn [flat_map]. unfold above at 1. destruct (measureF k x) as [[[m a] b]|] eqn:M.
    - destruct (m >? T)%Z eqn:C.
      + apply Z.gtb_lt in C. exists (x :: sel). split.
        * constructor; auto. exists m, a, b. split; [now apply measured_F|lia].
        * constructor; auto. exists m, a, b. split; [now apply measured_F|reflexivity].
      + exists sel. split; auto. constructor; auto. intros (m' & a' & b' & M' & L).
        apply measured_F in M'. rewrite M in M'. injection M' as <- <- <-.
        rewrite Z.gtb_ltb, Z.ltb_ge in C. lia.
    - exists sel. split; auto. constructor; auto. intros (m' & a' & b' & M' & L).
      apply measured_F in M'. congruence. }
  apply G.
Qed.

Ltac size_visit := intros n; unfold above, measureF; destruct n as [i t s]; destruct s; try reflexivity; cbn.
Lemma ccn_above T n : CyclomaticComplexity_visit T n = above SCyclomatic T T n.
Proof. destruct n as [i t s]; destruct s; reflexivity. Qed.
Lemma ncss_above T n : NcssMethodCount_visit T n = above SNcss T T n.
Proof. destruct n as [i t s]; destruct s; reflexivity. Qed.
Lemma depth_above T n : NestedBlockDepth_visit T n = above SDepth T T n.
Proof. destruct n as [i t s]; destruct s; reflexivity. Qed.
Lemma lines_above T n : LongMethod_visit T n = above SMethodLines T T n.
Proof.
  destruct n as [i t s]; destruct s; try reflexivity; destruct body as [bd|]; try reflexivity;
    unfold LongMethod_visit, onMethod, above, measureF; cbn [n_shape getBody isCppMethodDeclLocatedInCppRecordDecl bodyLines].
  destruct info as [nm [m|] def ln]; cbn [f_method f_bodyLines orb negb]; [destruct (cm_inRecord m)|]; reflexivity.
Qed.
Lemma class_above T n : LongClass_visit T n = above SClassLines T T n.
Proof.
  destruct n as [i t s]; destruct s; try reflexivity.
  unfold LongClass_visit, LongClass_applyDecl, above, measureF, kindstr. cbn [n_shape].
  destruct (oc_lines info >? T)%Z; [|reflexivity]. destruct (oc_kind info); reflexivity.
Qed.
Lemma fields_above T n : TooManyFields_visit T n = above SFields T T n.
Proof.
  destruct n as [i t s]; destruct s; try reflexivity.
  unfold TooManyFields_visit, above, measureF. cbn [n_shape]. destruct info as [[] ? ? ? ? ? ?]; reflexivity.
Qed.
Lemma methods_above T n : TooManyMethods_visit T n = above SMethods T T n.
Proof.
  destruct n as [i t s]; destruct s; try reflexivity.
  unfold TooManyMethods_visit, above, measureF. cbn [n_shape]. destruct info as [[] ? ? ? ? ? ?]; reflexivity.
Qed.
Lemma params_above T n :
  TooManyParameters_visit T n = above SParameters (to_unsigned T) (int_of_unsigned (to_unsigned T)) n.
Proof.
  destruct n as [i t s]; destruct s; try reflexivity;
    unfold TooManyParameters_visit, onMethod, above, measureF; cbn [n_shape getBody];
    destruct body as [bd|]; reflexivity.
Qed.
Lemma npath_above T n r : NPathComplexity_visit (Val T) n = Val r -> r = above SNPath T T n.
Proof.
  unfold NPathComplexity_visit, above, measureF.
  destruct n as [i t s]; destruct s; cbn [n_shape]; try (intros [= <-]; reflexivity);
    destruct body as [[j u sb]|]; cbn [getBody n_shape]; try (intros [= <-]; reflexivity);
    destruct sb; cbn [is_brace n_shape]; try (intros [= <-]; reflexivity);
    (match goal with |- context[nPath ?b] => destruct (nPath b) as [v|w|] eqn:E end); cbn [obind]; try discriminate;
    intros [= <-]; apply nPath_val in E; subst v; reflexivity.
Qed.

(** ** Rules that can throw *)
Lemma outcome_nodes visit root rs : reports_outcome visit root = Val rs <->
  exists rss, Forall2 (fun n r => visit n = Val r) (nodes root) rss /\ rs = concat rss.
Proof.
  unfold reports_outcome. rewrite traverse_nodes, visit_all_true by auto. cbn [snd].
  assert (G : forall l acc, fold_left (fun s m => snd (true, obind s (fun l => obind (visit m) (fun r => Val (l ++ r))))) l acc = Val rs <->
    exists pre rss, acc = Val pre /\ Forall2 (fun n r => visit n = Val r) l rss /\ rs = pre ++ concat rss).
  { induction l as [|n l IH]; intros acc; cbn [fold_left snd].
    - split.
      + intros ->. exists rs, []. rewrite app_nil_r. auto.
      + intros (pre & rss & -> & F & ->). inversion F; subst. cbn. now rewrite app_nil_r.
    - rewrite IH. split.
      + intros (pre & rss & E & F & ->). destruct acc as [p| |]; try discriminate. cbn in E.
        destruct (visit n) as [r| |] eqn:V; try discriminate. cbn in E. injection E as <-.
        exists p, (r :: rss). split; auto. split; [constructor; auto|]. cbn. now rewrite app_assoc.
      + intros (pre & rss & -> & F & ->). inversion F as [|? r ? rss' V F']; subst. exists (pre ++ r), rss'. cbn. rewrite V. cbn.
        split; auto. split; auto. now rewrite app_assoc. }
  rewrite G. split.
  - intros (pre & rss & [= <-] & F & ->). eauto.
  - intros (rss & F & ->). exists [], rss. auto.
Qed.

Lemma outcome_ext v1 v2 root : (forall n, v1 n = v2 n) -> reports_outcome v1 root = reports_outcome v2 root.
Proof.
  intros H. unfold reports_outcome. rewrite !traverse_nodes, !visit_all_true by auto. cbn [snd].
  generalize (@Val (list report) []). induction (nodes root) as [|n l IH]; intros a; cbn [fold_left snd]; auto. now rewrite H, IH.
Qed.
Lemma outcome_pure visit f root : (forall n, visit n = Val (f n)) -> reports_outcome visit root = Val (reports f root).
Proof.
  intros H. apply outcome_nodes. exists (map f (nodes root)). split.
  - induction (nodes root); cbn [map]; constructor; auto.
  - rewrite reports_nodes. apply flat_map_concat_map.
Qed.
(** The limit is known. *)
Lemma limit_val c key d reads visit root T c' : intForKey c key d = Val (T, c') -> (forall n, reads n = false -> visit T n = []) ->
  with_limit c key d reads visit root = Val (reports (visit T) root).
Proof.
  intros E H. apply outcome_pure. intros n. rewrite E. cbn [obind fst]. destruct (reads n) eqn:R; auto. now rewrite H.
Qed.
(** It is not, and was not needed. *)
Lemma outcome_silent visit root rs : (forall n r, visit n = Val r -> r = []) -> reports_outcome visit root = Val rs -> rs = [].
Proof.
  intros H E. apply outcome_nodes in E as (rss & F & ->). induction F as [|n r l rss V F IH]; auto. cbn. now rewrite (H n r V), IH.
Qed.
Lemma limit_silent c key d reads visit root rs : (forall T c', intForKey c key d <> Val (T, c')) ->
  with_limit c key d reads visit root = Val rs -> rs = [].
Proof.
  intros N. apply outcome_silent. intros n r. destruct (reads n); [|congruence].
  destruct (intForKey c key d) as [[T c']|m|]; [destruct (N T c' eq_refl)|discriminate|discriminate].
Qed.
Lemma setUp_val c key d visit roots rs : with_setUp c key d visit roots = Val rs ->
  exists T c', intForKey c key d = Val (T, c') /\ rs = flat_map (reports (visit T)) roots.
Proof.
  unfold with_setUp. destruct (intForKey c key d) as [[T c']|m|]; try discriminate. cbn [obind fst]. intros [= <-]. eauto.
Qed.
Lemma setUp_each c key d visit roots rs : with_setUp c key d visit roots = Val rs ->
  exists rss, Forall2 (fun n r => with_setUp c key d visit [n] = Val r) roots rss /\ rs = concat rss.
Proof.
  intros H. destruct (setUp_val _ _ _ _ _ _ H) as (T & c' & E & ->). exists (map (reports (visit T)) roots). split; [|apply flat_map_concat_map].
  unfold with_setUp. rewrite E. cbn [obind fst flat_map]. clear. induction roots; cbn [map]; constructor; auto. now rewrite app_nil_r.
Qed.
Lemma long_method_reads T n : isLongMethodCandidate n = false -> LongMethod_visit T n = [].
Proof.
  unfold isLongMethodCandidate, LongMethod_visit, onMethod, isMethod. destruct (n_shape n); try reflexivity; destruct (getBody n); try reflexivity;
    cbn [andb]; intros ->; reflexivity.
Qed.
Lemma method_reads f n : isMethod n = false -> onMethod f n = [].
Proof. unfold isMethod, onMethod. destruct (n_shape n); congruence. Qed.
Lemma block_reads T n : isBlock n = false -> NestedBlockDepth_visit T n = [].
Proof. unfold isBlock, NestedBlockDepth_visit. destruct (n_shape n); congruence. Qed.

Lemma intForKey_range c key d T c' : in_int d -> intForKey c key d = Val (T, c') -> in_int T.
Proof.
  intros Hd H. unfold intForKey in H. destruct (hasKey c key); [|congruence].
  destruct (valueForKey c key) as [[s c1]|w|]; cbn in H; try discriminate.
  unfold atoi in H.
  match type of H with context[in_intb ?z] => destruct (in_intb z) eqn:E end; cbn in H; [|discriminate].
  injection H as <- <-. unfold in_intb in E. apply andb_true_iff in E as [E1 E2].
  split; now apply Z.leb_le.
Qed.

Definition size_limit (k : sizekind) (T : Z) : Z := match k with SParameters => to_unsigned T | _ => T end.
Definition size_shown (k : sizekind) (T : Z) : Z :=
  match k with SParameters => int_of_unsigned (to_unsigned T) | _ => T end.
Lemma size_rule_nodes k c c' T root rs :
  intForKey c (size_key k) (size_default k) = Val (T, c') ->
  size_rule k c root = Val rs ->
  rs = flat_map (above k (size_limit k T) (size_shown k T)) (nodes root).
Proof.
  intros HT H.
  destruct k; cbn [size_rule size_key size_default] in *;
    unfold CyclomaticComplexityRule, NcssMethodCountRule, NestedBlockDepthRule, LongMethodRule,
      LongClassRule, TooManyFieldsRule, TooManyMethodsRule, TooManyParametersRule in H.
  3: { apply outcome_nodes in H as (rss & F & ->). rewrite HT in F. cbn [obind fst] in F.
    induction F as [|n r l rss V F IH]; cbn [concat flat_map]; auto. apply npath_above in V. now rewrite V, IH. }
  5-8: unfold with_setUp in H; rewrite HT in H; cbn [obind fst flat_map] in H; rewrite app_nil_r in H.
  1-4: rewrite (limit_val _ _ _ _ _ _ _ _ HT) in H by (intros; first [now apply long_method_reads|now apply block_reads|now apply method_reads]).
  all: injection H as <-; rewrite reports_nodes; apply flat_map_ext; intros n;
         first [apply ccn_above|apply ncss_above|apply depth_above|apply lines_above|apply class_above
               |apply fields_above|apply methods_above|apply params_above].
Qed.
Lemma size_rule_total k c c' T root :
  k <> SNPath -> intForKey c (size_key k) (size_default k) = Val (T, c') -> exists rs, size_rule k c root = Val rs.
Proof.
  intros Hk HT. destruct k; try congruence; cbn [size_rule size_key size_default] in *;
    unfold CyclomaticComplexityRule, NcssMethodCountRule, NestedBlockDepthRule, LongMethodRule,
      LongClassRule, TooManyFieldsRule, TooManyMethodsRule, TooManyParametersRule.
  5-8: unfold with_setUp; rewrite HT; cbn [obind]; eauto.
  all: rewrite (limit_val _ _ _ _ _ _ _ _ HT) by (intros; first [now apply long_method_reads|now apply block_reads|now apply method_reads]); eauto.
Qed.
(** Without a limit. *)
Lemma size_rule_silent k c root rs : (forall T c', intForKey c (size_key k) (size_default k) <> Val (T, c')) ->
  size_rule k c root = Val rs -> rs = [].
Proof.
  intros N H. destruct k; cbn [size_rule size_key size_default] in *; try (eapply limit_silent; eauto; fail);
    try (apply setUp_val in H as (T & c' & E & _); destruct (N T c' E)).
  unfold NPathComplexityRule in H. apply outcome_silent in H; auto. intros n r V.
  destruct (intForKey c _ 200) as [[T c']|m|]; [destruct (N T c' eq_refl)| |]; cbn [obind] in V; unfold NPathComplexity_visit in V;
    destruct (n_shape n); try congruence; destruct (getBody n) as [b|]; try congruence; destruct (n_shape b); try congruence;
    destruct (nPath b); discriminate.
Qed.

(** ** Recording *)
Lemma perform_nil e rule attr visit tops st : perform e rule attr visit tops [] st = st.
Proof. reflexivity. Qed.
Lemma traverse_rule_nodes e rule attr visit root st :
  traverse_rule e rule attr visit root st
  = fold_left (add_report e rule attr) (flat_map visit (nodes root)) st.
Proof.
  unfold traverse_rule. rewrite traverse_nodes, visit_all_true by auto. cbn [snd].
  revert st. induction (nodes root) as [|a l IH]; intros st; simpl; auto.
  now rewrite IH, fold_left_app.
Qed.
