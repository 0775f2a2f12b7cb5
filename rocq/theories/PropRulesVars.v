(** * C63: short variable names; C64: long variable names; C70: types exempt from being unused;
      C92: unused local variables and parameters *)
From Verif Require Import Base BaseFacts ModelConfig ModelAST ModelRules ModelRulesRedundant ModelRulesVars SpecFilter SpecAST SpecRules
  SpecRulesRedundant SpecRulesVars ProofConfig ProofFilter ProofAST ProofRules ProofRulesRedundant ProofRulesVars PropAST PropRulesBasic.
Local Arguments lit : simpl never.

(** ** C63 *)
(** Exactly the short names that are not exempt are reported, in source order.  What earlier
    units left on the rule's stack must not be addresses of this unit. *)
Theorem c63_exactly_short : forall c T c' left roots, intForKey c $"SHORT_VARIABLE_NAME" 3 = Val (T, c') ->
  distinct_nodes roots -> (forall i, In i left -> forall m, In m (all_nodes roots) -> n_id m <> i) ->
  exists rs sel, ShortVariableNameRule c left roots = Val rs
  /\ sublist_where (fun p => (exists name, short_name T (snd p) name) /\ ~ exempt T (fst p) (snd p)) (spots [] (all_nodes roots)) sel
  /\ Forall2 (fun p r => exists name, short_name T (snd p) name /\ r = Report (snd p) (length_message name name $"shorter" T)) sel rs.
Proof.
  intros c T c' left roots HT D F. unfold ShortVariableNameRule. rewrite (short_limit _ _ _ _ _ HT). cbn [obind]. unfold short_pure.
  destruct (short_run T left roots D F (all_nodes roots) [] left []) as (sel & S & E); [reflexivity| |].
  { right. split; [intros m []|reflexivity]. }
  rewrite E. exists (map (fun p => short_report T (snd p)) sel), sel. split; [reflexivity|]. split; [exact S|].
  clear - S. induction S as [|p l s [P _] S IH|]; auto; constructor; auto. cbn.
  destruct (short_report_spec T (snd p) P) as (name & A & B). eauto.
Qed.
(** In particular a name that is not in a loop or catch head is reported (no head at all
    before it, or it is not declared there) ... *)
Theorem c63_outside_heads_reported : forall c T c' left roots, intForKey c $"SHORT_VARIABLE_NAME" 3 = Val (T, c') ->
  distinct_nodes roots -> (forall i, In i left -> forall m, In m (all_nodes roots) -> n_id m <> i) ->
  exists rs, ShortVariableNameRule c left roots = Val rs /\
  forall d name, In d (all_nodes roots) -> short_name T d name ->
    (forall h ds, In h (all_nodes roots) -> head_of h ds -> ~ In d ds) ->
    exists r, In r rs /\ rp_node r = d.
Proof.
  intros c T c' left roots HT D F. destruct (c63_exactly_short c T c' left roots HT D F) as (rs & sel & E & S & R).
  exists rs. split; [exact E|]. intros d name Hd Hs N. apply in_split in Hd as (b & a & Eb).
  assert (I : In (b, d) (spots [] (all_nodes roots))).
  { rewrite Eb. change b with ([] ++ b) at 1. generalize (@nil node). clear. induction b as [|x b IH]; intros l; cbn.
    - left. now rewrite app_nil_r.
    - right. replace (l ++ x :: b) with ((l ++ [x]) ++ b) by now rewrite <- app_assoc. apply IH. }
  assert (X : In (b, d) sel).
  { clear R. induction S as [|p l s P S IH|p l s P S IH]; [exact I| |].
    - destruct I as [->|I]; [left; reflexivity|right; auto].
    - destruct I as [->|I]; [|auto]. exfalso. apply P. cbn. split; [eauto|].
      intros (pre & h & mid & ds & vs & k & -> & Hh & Hv & _ & _ & K). eapply (N h ds); [|exact Hh|].
      + rewrite Eb. apply in_or_app. left. apply in_or_app. right. left. reflexivity.
      + apply nth_error_In in K. clear - Hv K. induction Hv; [destruct K| |]; [destruct K as [->|K]; [left; reflexivity|right; auto]|right; auto]. }
  clear - R X. induction R as [|p r sel rs (name & _ & ->) R IH]; [destruct X|]. destruct X as [->|X].
  - eexists. split; [left; reflexivity|reflexivity].
  - destruct (IH X) as (r & H & K). exists r. split; [right; exact H|exact K].
Qed.
(** ... and the variables of a head are not, if they are all short. *)
Theorem c63_heads_not_reported : forall c T c' left roots rs h ds, intForKey c $"SHORT_VARIABLE_NAME" 3 = Val (T, c') ->
  distinct_nodes roots -> (forall i, In i left -> forall m, In m (all_nodes roots) -> n_id m <> i) ->
  ShortVariableNameRule c left roots = Val rs -> In h (all_nodes roots) -> plain_head h ds ->
  (forall d, In d ds -> (exists name, short_name T d name) /\ quiet T d) ->
  forall d r, In d ds -> In r rs -> rp_node r <> d.
Proof.
  intros c T c' left roots rs h ds HT D F E Hh Ph Q d r Hd Hr Er.
  destruct (c63_exactly_short c T c' left roots HT D F) as (rs' & sel & E' & S & R). rewrite E in E'. injection E' as <-.
  assert (X : exists b, In (b, d) sel).
  { clear - R Hr Er. induction R as [|p x sel rs (name & _ & ->) R IH]; [destruct Hr|]. destruct Hr as [<-|Hr].
    - destruct p as [b m]. cbn in Er. subst m. exists b. left. reflexivity.
    - destruct (IH Hr) as (b & H). exists b. right. exact H. }
  destruct X as (b & X).
  assert (Y : In (b, d) (spots [] (all_nodes roots)) /\ ~ exempt T b d).
  { clear - S X. induction S as [|p l s P S IH|p l s P S IH]; [destruct X| |].
    - destruct X as [->|X]; [cbn in P; split; [left; reflexivity|tauto]|]. destruct (IH X). split; [right; auto|auto].
    - destruct (IH X). split; [right; auto|auto]. }
  destruct Y as [Y N]. apply N. apply spots_in in Y as (mid & after & Eb & Ea). cbn in Eb. subst mid.
  apply in_all in Hh as (root & Hr' & B). destruct (all_contiguous roots root h Hr' B) as (pre & post & Ec).
  destruct (plain_nodes h ds Ph) as (HH & lead & rest & Eh & L). pose proof Hd as Hd'. apply in_split in Hd' as (d1 & d2 & Ed).
  assert (W : b = pre ++ h :: lead ++ flat_map nodes d1).
  { assert (Z : exists z, all_nodes roots = (pre ++ h :: lead ++ flat_map nodes d1) ++ d :: z).
    { rewrite Ec, Eh, Ed, flat_map_app. cbn [flat_map]. rewrite (nodes_eq d). eexists. rewrite <- ?app_assoc. cbn. rewrite <- ?app_assoc. cbn. rewrite <- ?app_assoc. reflexivity. }
    destruct Z as (z & Z). unfold distinct_nodes in D. rewrite Ea in D, Z. eapply distinct_split; eauto. }
  rewrite W. eapply plain_exempt; eauto.
Qed.
(** Finding: in [for (int index, i; ;)] the exemption of [i] is lost. *)
Definition ex_loop (vs : list node) (b : node) : node := nd 1 (ForStmt (Some (nd 2 (DeclStmt vs))) [] None None b).
Definition ex_decl (i : nat) (name : str) : node := nd i (VarDecl (ex_vi name) None).
Theorem c63_after_long_name_refuted : exists roots h ds d r, distinct_nodes roots /\ In h (all_nodes roots) /\ plain_head h ds /\ In d ds
  /\ ShortVariableNameRule cfg_fresh [] roots = Val [r] /\ rp_node r = d.
Proof.
  set (ds := [ex_decl 3 $"index"; ex_decl 4 $"i"]).
  exists [ex_loop ds (nd 5 NullStmt)], (ex_loop ds (nd 5 NullStmt)), ds, (ex_decl 4 $"i"). eexists. split; [|split; [|split; [|split; [|split]]]].
  - unfold distinct_nodes. vm_compute. repeat constructor; simpl; intuition discriminate.
  - left. reflexivity.
  - eapply ph_for; reflexivity.
  - right. left. reflexivity.
  - vm_compute. reflexivity.
  - reflexivity.
Qed.
(** Finding: the stack survives the unit, so a variable of another unit that happens to have
    the address of a forgotten header variable is not reported. *)
Theorem c63_stale_stack_refuted : exists left d, ShortVariableNameRule cfg_fresh left [d] = Val []
  /\ short_name 3 d $"i" /\ (forall h ds, In h (all_nodes [d]) -> ~ head_of h ds)
  /\ exists root1, exists rs, ShortVariableName_run cfg_fresh [] [root1] = Val (left, rs).
Proof.
  exists [3], (ex_decl 3 $"i"). split; [vm_compute; reflexivity|]. split; [split; [do 2 eexists; split; reflexivity|cbv; auto]|]. split.
  - intros h ds [<-|[]] H. inversion H; discriminate.
  - exists (ex_loop [ex_decl 3 $"index"] (nd 5 NullStmt)), []. reflexivity.
Qed.
(** [int x; for (int i, j; ;) { int k; }]: x and k. *)
Definition ex_names : node :=
  nd 10 (CompoundStmt [nd 11 (DeclStmt [ex_decl 12 $"x"]);
    ex_loop [ex_decl 3 $"i"; ex_decl 4 $"j"] (nd 5 (CompoundStmt [nd 6 (DeclStmt [ex_decl 7 $"k"])]))]).
Example c63_case : distinct_nodes [ex_names] /\ intForKey cfg_fresh $"SHORT_VARIABLE_NAME" 3 = Val (3%Z, cfg_fresh)
  /\ match ShortVariableNameRule cfg_fresh [] [ex_names] with Val rs => map (fun r => n_id (rp_node r)) rs | _ => [] end = [12; 7].
Proof.
  split; [unfold distinct_nodes; vm_compute; repeat constructor; simpl; intuition discriminate|]. split; reflexivity.
Qed.

(** ** C64 *)
Theorem c64_exactly_long : forall c T c' root, intForKey c $"LONG_VARIABLE_NAME" 20 = Val (T, c') -> (-8 <= T)%Z ->
  (forall n name, below root n -> variable_named n name -> (size name <= INT_MAX - 10)%Z) ->
  exists rs, LongVariableNameRule c root = Val rs /\ reports_messages (long_name T) root rs.
Proof.
  intros c T c' root HT HL B. rewrite (long_val _ _ _ _ HT). apply outcome_messages.
  intros n Hn. apply long_node; auto. intros name. now apply B.
Qed.
(** What is displayed is determined, ... *)
Theorem c64_displayed_unique : forall T name s s', (-8 <= T)%Z -> displayed T name s -> displayed T name s' -> s = s'.
Proof.
  intros T name s s' HT H H'. destruct (Z_le_gt_dec (size name) (T + 10)) as [L|G].
  - inversion H; inversion H'; subst; auto; lia.
  - apply shortened_iff in H; [|lia|lia]. apply shortened_iff in H'; [|lia|lia]. congruence.
Qed.
(** ... starts and ends as the name does, and is shorter unless it is the name. *)
Theorem c64_displayed_shape : forall T name s, (0 <= T)%Z -> displayed T name s ->
  s = name \/ (size s = T + 9 /\ size s < size name
    /\ firstn (Z.to_nat (T + 3)) s = firstn (Z.to_nat (T + 3)) name /\ exists y b, name = y ++ b /\ s = firstn (Z.to_nat (T + 6)) s ++ b /\ size b = 3)%Z.
Proof.
  intros T name s HT H. inversion H as [name' L|name' a b x y G E1 E2 [[K _]|K] B]; subst name' s; auto; [lia|]. right.
  rewrite !size_app. change (size $"...") with 3%Z. split; [lia|]. split; [lia|]. split.
  - rewrite E1. rewrite !firstn_app. unfold size in K. replace (Z.to_nat (T + 3) - length a) with 0 by lia. cbn. now rewrite !app_nil_r.
  - exists y, b. split; [exact E2|]. split; [|exact B]. rewrite app_assoc. unfold size in K.
    rewrite firstn_app. replace (Z.to_nat (T + 6) - length (a ++ $"...")) with 0 by (rewrite app_length; change (length $"...") with 3; lia).
    rewrite firstn_O, app_nil_r. rewrite firstn_all2; [reflexivity|]. rewrite app_length. change (length $"...") with 3. lia.
Qed.
(** Finding: with a limit below -8 a short name makes the rule throw. *)
Definition ex_limit_9 : cfg := addConfiguration cfg_fresh $"LONG_VARIABLE_NAME" $"-9".
Theorem c64_negative_limit_refuted : exists c T c' root, intForKey c $"LONG_VARIABLE_NAME" 20 = Val (T, c')
  /\ (forall n name, below root n -> variable_named n name -> (size name <= INT_MAX - 10)%Z)
  /\ exists what, LongVariableNameRule c root = Exc what.
Proof.
  exists ex_limit_9, (-9)%Z, ex_limit_9, (ex_decl 1 $"ab"). split; [vm_compute; reflexivity|]. split; [|eexists; vm_compute; reflexivity].
  intros n name B (v & i & E & <-). inversion B as [? |? c ? Hc]; subst; [|destruct Hc]. cbn in E. injection E as <- _. cbv. discriminate.
Qed.
Example c64_case : intForKey cfg_fresh $"LONG_VARIABLE_NAME" 20 = Val (20%Z, cfg_fresh)
  /\ LongVariableNameRule cfg_fresh (ex_decl 1 $"aVariableNamedMuchLongerThanIsUsual")
  = Val [Report (ex_decl 1 $"aVariableNamedMuchLongerThanIsUsual") 
      $"Length of variable name `aVariableNamedMuchLonge...ual` is 35, which is longer than the threshold of 20"]
  /\ LongVariableNameRule cfg_fresh (ex_decl 1 $"exactlyTwentyLetters") = Val [].
Proof. repeat split; vm_compute; reflexivity. Qed.

(** ** C70 *)
(** The words of the two configured texts ... *)
Theorem c70_words : forall c, exists d u skipped, configured c $"RAII_DEFAULT_CLASSES" $"std::lock_guard, std::unique_lock" d
  /\ configured c $"RAII_CUSTOM_CLASSES" [] u /\ skippedTypes c = Val skipped
  /\ forall w, In w skipped <-> word d w \/ word u w.
Proof.
  intros c. unfold configured, skippedTypes. rewrite !stringForKey_get. do 3 eexists. split; [reflexivity|]. split; [reflexivity|].
  cbn [obind fst snd]. rewrite stringForKey_get. cbn [obind fst snd]. split; [reflexivity|]. intros w. cbn [flat_map]. rewrite app_nil_r.
  assert (K : forall t, In w match t with [] => [] | _ => splitClasses t end <-> word t w).
  { intros t. rewrite <- splitClasses_words. destruct t; [|reflexivity]. cbn. tauto. }
  rewrite in_app_iff, !K. reflexivity.
Qed.
(** ... exempt the variables whose type has one as its base name, and every type has one base name. *)
Theorem c70_one_base_name : forall type, exists b, base_name type b /\ forall b', base_name type b' -> b' = b.
Proof. intros type. exists (variableTypeName type). split; [apply base_name_model|]. intros b' H. eapply base_name_det; eauto using base_name_model. Qed.
Theorem c70_exactly_unused : forall c d u root, configured c $"RAII_DEFAULT_CLASSES" $"std::lock_guard, std::unique_lock" d ->
  configured c $"RAII_CUSTOM_CLASSES" [] u ->
  exists rs, UnusedLocalVariableRule c root = Val rs /\ reports_messages (reported_unused d u) root rs.
Proof.
  intros c d u root D U. destruct (c70_words c) as (d' & u' & sk & D' & U' & E & W). unfold configured in *.
  assert (d' = d) by congruence. assert (u' = u) by congruence. subst d' u'.
  unfold UnusedLocalVariableRule. rewrite E. cbn [obind]. eexists. split; [reflexivity|]. apply reports_messages_intro.
  assert (X : forall v, (exists b, base_name (v_canonicalType v) b /\ In b sk) <-> (exists b, base_name (v_canonicalType v) b /\ (word d b \/ word u b))).
  { intros v. split; intros (b & A & B); exists b; (split; [exact A|]); now apply W. }
  intros n. destruct (unused_node sk n) as [(v & A & B & R)|[N R]].
  - left. eexists. split; [|exact R]. exists v. split; [exact A|]. split; [|reflexivity]. rewrite <- X. exact B.
  - right. split; [|exact R]. intros m (v & A & B & _). apply N. exists v. split; [exact A|]. rewrite X. exact B.
Qed.
(** Finding: as everything behind the template arguments is cut off, a pointer to an exempt
    type and a type nested in it are exempt too. *)
Definition ex_unused (name type : str) : varinfo :=
  {| v_isParm := false; v_name := name; v_used := false; v_referenced := false; v_local := true; v_staticMember := false;
     v_private := false; v_unusedAttr := false; v_defaultArg := false; v_canonicalType := type; v_inTemplate := false;
     v_contexts := [] |}.
Theorem c70_pointer_refuted : forall s, In s [$"class std::lock_guard<class std::mutex> *"; $"struct std::lock_guard<class std::mutex>::inner"] ->
  exists n v, unused_local n v /\ v_canonicalType v = s /\ UnusedLocalVariableRule cfg_fresh n = Val [].
Proof.
  intros s H. set (v := ex_unused $"guard" s).
  exists (nd 1 (VarDecl v None)), v. split; [|split; [reflexivity|]].
  - split; [eexists; reflexivity|]. repeat split; try reflexivity. discriminate.
  - destruct H as [<-|[<-|[]]]; vm_compute; reflexivity.
Qed.
Example c70_case :
  match UnusedLocalVariableRule (addConfiguration cfg_fresh $"RAII_CUSTOM_CLASSES" $"mine;;a::b , c")
    (nd 1 (CompoundStmt [nd 2 (DeclStmt (map (fun p => nd (fst p) (VarDecl (ex_unused $"v" (snd p)) None))
      [(3, $"class std::lock_guard<class std::mutex>"); (4, $"int"); (5, $"struct a::b"); (6, $"const struct mine<int, a::d>"); (7, $"b")]))]))
  with Val rs => map (fun r => n_id (rp_node r)) rs | _ => [] end = [4; 7].
Proof. vm_compute. reflexivity. Qed.

(** ** C92 *)
Theorem c92_exactly_parameters : forall root, reports_messages reported_parameter root (reports UnusedMethodParameter_visit root).
Proof.
  intros root. apply reports_messages_intro. intros n. destruct (parameter_node n) as [(v & A & R)|[N R]].
  - left. eexists. split; [|exact R]. exists v. auto.
  - right. split; [|exact R]. intros m (v & A & _). apply N. eauto.
Qed.
(** No variable is reported by both rules as long as Clang's local variables are no parameters. *)
Theorem c92_not_both : forall n v v', unused_local n v -> unused_parameter n v' -> v = v' /\ v_local v = true /\ v_isParm v = true.
Proof.
  intros n v v' ((i & E) & _ & _ & L & _) ((i' & E') & P & _). rewrite E in E'. injection E' as <- _. auto.
Qed.
(** Finding: a parameter of a function defined in a class body has the class among its lexical
    contexts and is never reported, whatever else holds; neither is one of a closure. *)
Theorem c92_in_class_body_never : forall root rs, rs = reports UnusedMethodParameter_visit root ->
  forall r v i, In r rs -> n_shape (rp_node r) = VarDecl v i -> ~ In CxRecord (v_contexts v) /\ ~ In CxClosure (v_contexts v).
Proof.
  intros root rs -> r v i H E. destruct (c92_exactly_parameters root) as (sel & _ & F).
  assert (X : exists m, reported_parameter (rp_node r) m).
  { clear E. induction F as [|n x sel rs (m & A & ->) F IH]; [destruct H|]. destruct H as [<-|H]; [eauto|auto]. }
  destruct X as (m & w & ((j & E') & _ & _ & _ & _ & _ & O) & _). rewrite E in E'. injection E' as <- _.
  split; intros K; apply (O _ K); constructor.
Qed.
Definition ex_parm (name : str) (used : bool) (cs : list context) : varinfo :=
  {| v_isParm := true; v_name := name; v_used := used; v_referenced := used; v_local := false; v_staticMember := false;
     v_private := false; v_unusedAttr := false; v_defaultArg := false; v_canonicalType := $"int"; v_inTemplate := false;
     v_contexts := cs |}.
Theorem c92_in_class_body_refuted : exists n v, n_shape n = VarDecl v None /\ v_isParm v = true /\ v_used v = false
  /\ v_unusedAttr v = false /\ v_name v <> [] /\ v_contexts v = [CxFunction true true false; CxRecord]
  /\ reports UnusedMethodParameter_visit n = [].
Proof.
  set (v := ex_parm $"p" false [CxFunction true true false; CxRecord]). exists (nd 1 (VarDecl v None)), v. repeat split. discriminate.
Qed.
Example c92_case : map (fun r => n_id (rp_node r)) (reports UnusedMethodParameter_visit (nd 1 (OtherDecl
    (map (fun p => nd (fst p) (VarDecl (snd p) None))
      [(2, ex_parm $"a" false [CxFunction true true false; CxOther]); (3, ex_parm $"b" true [CxFunction true true false]);
       (4, ex_parm $"c" false [CxFunction true true true]); (5, ex_parm $"d" false [CxFunction true true false; CxRecord]);
       (6, ex_parm [] false [CxFunction true true false]); (7, ex_parm $"e" false [CxObjCMethod false false false false])]))))
  = [2; 7].
Proof. reflexivity. Qed.

Print Assumptions c63_exactly_short.
Print Assumptions c63_outside_heads_reported.
Print Assumptions c63_heads_not_reported.
Print Assumptions c63_after_long_name_refuted.
Print Assumptions c63_stale_stack_refuted.
Print Assumptions c64_exactly_long.
Print Assumptions c64_displayed_unique.
Print Assumptions c64_displayed_shape.
Print Assumptions c64_negative_limit_refuted.
Print Assumptions c70_words.
Print Assumptions c70_one_base_name.
Print Assumptions c70_exactly_unused.
Print Assumptions c70_pointer_refuted.
Print Assumptions c92_exactly_parameters.
Print Assumptions c92_not_both.
Print Assumptions c92_in_class_body_never.
Print Assumptions c92_in_class_body_refuted.
