(** * Lemmas about the rules on redundant code *)
From Verif Require Import Base BaseFacts ModelConfig ModelAST ModelRules ModelRulesBasic ModelRulesRedundant SpecFilter SpecAST
  ProofAST SpecRules ProofRules SpecExec ProofExec ProofExecSeq SpecRulesBasic ProofRulesBasic SpecRulesRedundant.

(** ** Literals *)
Lemma both_iff {A} (f : node -> option A) eq a b :
  both f eq a b = true <-> exists x y, f a = Some x /\ f b = Some y /\ eq x y = true.
Proof.
  unfold both. destruct (f a), (f b); split; try discriminate; eauto 6;
    intros (x & y & X & Y & E); congruence.
Qed.
Lemma cxxBool_iff n b : cxxBool n = Some b <-> n_shape n = CXXBoolLiteralExpr b.
Proof. unfold cxxBool. destruct (n_shape n); split; congruence. Qed.
Lemma objcBool_iff n b : objcBool n = Some b <-> n_shape n = ObjCBoolLiteralExpr b.
Proof. unfold objcBool. destruct (n_shape n); split; congruence. Qed.
Lemma castInteger_iff n b : castIntegerBool n = Some b <->
  exists k m z, n_shape n = CStyleCastExpr k m /\ n_shape m = IntegerLiteral z /\ (b = true <-> z <> 0%Z).
Proof.
  unfold castIntegerBool, integerBool, integer. split.
  - destruct (n_shape n) eqn:E; try discriminate. destruct (n_shape sub) eqn:F; try discriminate.
    intros [= <-]. exists kind, sub, value. repeat split; auto.
    + destruct (Z.eqb_spec value 0); simpl; congruence.
    + destruct (Z.eqb_spec value 0); simpl; congruence.
  - intros (k & m & z & -> & F & H). rewrite F. f_equal. destruct (Z.eqb_spec z 0) as [Z|Z]; destruct b; simpl; auto.
    + exfalso. apply H; auto.
    + symmetry. now apply H.
Qed.
Lemma differ_iff a b : differ a b = true <-> b = negb a.
Proof. destruct a, b; cbv; split; congruence. Qed.
Lemma eqb_iff a b : Bool.eqb a b = true <-> b = a.
Proof. destruct a, b; simpl; split; congruence. Qed.

(** [rel] compares the literals of one kind, [want] the two truth values *)
Lemma literals_iff (rel : bool -> bool -> bool) (w : bool -> bool) a b :
  (forall x y, rel x y = true <-> y = w x) ->
  (both cxxBool rel a b || both objcBool rel a b || both castIntegerBool rel a b = true
   <-> same_kind a b /\ exists x, bool_literal a x /\ bool_literal b (w x)).
Proof.
  intros R. rewrite !orb_true_iff, !both_iff. split.
  - intros [[(x & y & A & B & E)|(x & y & A & B & E)]|(x & y & A & B & E)]; apply R in E; subst y.
    + apply cxxBool_iff in A, B. split; [left; eauto|]. exists x. split; now apply bl_cxx.
    + apply objcBool_iff in A, B. split; [right; left; eauto|]. exists x. split; now apply bl_objc.
    + apply castInteger_iff in A as (k & m & z & A1 & A2 & A3), B as (k' & m' & z' & B1 & B2 & B3).
      split; [right; right; exists k, k', m, m'; auto|]. exists x. split; eapply bl_cast; eauto.
  - intros [K (x & A & B)].
    destruct K as [(p & q & P & Q)|[(p & q & P & Q)|(k & k' & p & q & P & Q)]].
    + left. left. exists x, (w x). repeat split; [| |now apply R]; apply cxxBool_iff.
      * inversion A; subst; congruence.
      * inversion B; subst; congruence.
    + left. right. exists x, (w x). repeat split; [| |now apply R]; apply objcBool_iff.
      * inversion A; subst; congruence.
      * inversion B; subst; congruence.
    + right. exists x, (w x). repeat split; [| |now apply R]; apply castInteger_iff.
      * inversion A; subst; try congruence. eauto 6.
      * inversion B; subst; try congruence. eauto 6.
Qed.
Lemma opposite_iff a b : if_isNotEquals a b = true <-> opposite_literals a b.
Proof. unfold if_isNotEquals, opposite_literals. apply literals_iff, differ_iff. Qed.
Lemma implicit_iff n m : extractFromImplicitCastExpr n = Some m <-> implicitly n m.
Proof.
  unfold extractFromImplicitCastExpr, implicitly. destruct (n_shape n); split; try discriminate;
    try (intros [k [=]]); try (intros [= <-]; eauto); congruence.
Qed.
Lemma within_iff f n b : within f n = Some b <-> exists m, implicitly n m /\ f m = Some b.
Proof.
  unfold within. setoid_rewrite <- implicit_iff. destruct (extractFromImplicitCastExpr n); split; try discriminate; eauto.
  - intros (m & [= ->] & H). exact H.
  - intros (m & [=] & _).
Qed.
Lemma implicit_det n a b : implicitly n a -> implicitly n b -> a = b.
Proof. intros [k H] [k' H']. congruence. Qed.
Lemma operand_iff (rel : bool -> bool -> bool) (w : bool -> bool) a b :
  (forall x y, rel x y = true <-> y = w x) ->
  (both cxxBool rel a b || both (within objcBool) rel a b || both (within castIntegerBool) rel a b = true
   <-> operand (fun a b => same_kind a b /\ exists x, bool_literal a x /\ bool_literal b (w x)) a b).
Proof.
  intros R. rewrite !orb_true_iff, !both_iff. setoid_rewrite within_iff. split.
  - intros [[(x & y & A & B & E)|(x & y & (m & I & A) & (m' & I' & B) & E)]|(x & y & (m & I & A) & (m' & I' & B) & E)]; apply R in E; subst y.
    + apply cxxBool_iff in A, B. apply op_bare with x (w x); auto. split; [left; eauto|]. exists x. split; now apply bl_cxx.
    + apply objcBool_iff in A, B. apply op_cast with m m'; auto; [intros ? Q; congruence|].
      split; [right; left; eauto|]. exists x. split; now apply bl_objc.
    + apply castInteger_iff in A as (k & p & z & A1 & A2 & A3), B as (k' & p' & z' & B1 & B2 & B3).
      apply op_cast with m m'; auto; [intros ? Q; congruence|].
      split; [right; right; exists k, k', p, p'; auto|]. exists x. split; eapply bl_cast; eauto.
  - inversion 1 as [t f p q P Q [K (x & A & B)]|t f t' f' I I' N [K (x & A & B)]]; subst.
    + left. left. exists x, (w x). repeat split; [| |now apply R]; apply cxxBool_iff.
      * inversion A; subst; congruence.
      * inversion B; subst; congruence.
    + destruct K as [(p & q & P & Q)|[(p & q & P & Q)|(k & k' & p & q & P & Q)]].
      * exfalso. eapply N; eauto.
      * left. right. exists x, (w x). repeat split; [| |now apply R]; [exists t'|exists f']; (split; [auto|]); apply objcBool_iff.
        -- inversion A; subst; congruence.
        -- inversion B; subst; congruence.
      * right. exists x, (w x). repeat split; [| |now apply R]; [exists t'|exists f']; (split; [auto|]); apply castInteger_iff.
        -- inversion A; subst; try congruence. eauto 6.
        -- inversion B; subst; try congruence. eauto 6.
Qed.
Lemma notEquals_iff a b : isNotEquals a b = true <-> operand opposite_literals a b.
Proof. unfold isNotEquals, isCXXBoolNotEquals, isObjCBOOLNotEquals, isObjCIntegerLiteralBOOLNotEquals. apply operand_iff, differ_iff. Qed.
Lemma boolEquals_iff a b : isCXXBoolEquals a b || isObjCBOOLEquals a b || isObjCIntegerLiteralBOOLEquals a b = true
  <-> operand equal_literals a b.
Proof. unfold isCXXBoolEquals, isObjCBOOLEquals, isObjCIntegerLiteralBOOLEquals. apply (operand_iff Bool.eqb (fun b => b)), eqb_iff. Qed.
Lemma sameConstant_iff a b : isSameConstant a b = true <-> same_constant a b.
Proof.
  unfold isSameConstant. rewrite (orb_true_iff _ (isStringLiteralEquals a b)), (orb_true_iff _ (isCharacterLiteralEquals a b)),
    (orb_true_iff _ (isFloatingLiteralEquals a b)), (orb_true_iff _ (isIntegerLiteralEquals a b)), boolEquals_iff.
  split.
  - intros [[[[H|H]|H]|H]|H].
    + now apply sc_bool.
    + apply both_iff in H as (x & y & A & B & E). apply Z.eqb_eq in E. subst y. unfold integer in *.
      destruct (n_shape a) eqn:Ea; try discriminate. destruct (n_shape b) eqn:Eb; try discriminate.
      eapply sc_int; [rewrite Ea|rewrite Eb]; f_equal; congruence.
    + apply both_iff in H as (x & y & A & B & E). apply Z.eqb_eq in E. subst y. unfold floating in *.
      destruct (n_shape a) eqn:Ea; try discriminate. destruct (n_shape b) eqn:Eb; try discriminate.
      eapply sc_float; [rewrite Ea|rewrite Eb]; f_equal; congruence.
    + apply both_iff in H as (x & y & A & B & E). apply Z.eqb_eq in E. subst y. unfold character in *.
      destruct (n_shape a) eqn:Ea; try discriminate. destruct (n_shape b) eqn:Eb; try discriminate.
      eapply sc_char; [rewrite Ea|rewrite Eb]; f_equal; congruence.
    + unfold isStringLiteralEquals in H.
      destruct (extractFromImplicitCastExpr a) as [t|] eqn:Ia; try discriminate.
      destruct (extractFromImplicitCastExpr b) as [f|] eqn:Ib; try discriminate.
      apply implicit_iff in Ia, Ib. apply both_iff in H as (x & y & A & B & E). apply str_eqb_eq in E. subst y. unfold stringBytes in *.
      destruct (n_shape t) eqn:Ea; try discriminate. destruct (n_shape f) eqn:Eb; try discriminate.
      eapply sc_string with (t' := t) (f' := f); [exact Ia|exact Ib|rewrite Ea; reflexivity|rewrite Eb; congruence].
  - inversion 1; subst; auto.
    + left. left. left. right. apply both_iff. exists z, z. unfold integer. rewrite H0, H1. repeat split. apply Z.eqb_refl.
    + left. left. right. apply both_iff. exists z, z. unfold floating. rewrite H0, H1. repeat split. apply Z.eqb_refl.
    + left. right. apply both_iff. exists z, z. unfold character. rewrite H0, H1. repeat split. apply Z.eqb_refl.
    + right. unfold isStringLiteralEquals. apply implicit_iff in H0, H1. rewrite H0, H1. apply both_iff. exists s, s.
      unfold stringBytes. rewrite H2, H3. repeat split. now apply str_eqb_eq.
Qed.
Lemma sameVariable_iff a b : isSameVariable a b = true <-> same_variable a b.
Proof.
  unfold isSameVariable, same_variable. split.
  - destruct (extractFromImplicitCastExpr a) as [t|] eqn:Ia; try discriminate.
    destruct (extractFromImplicitCastExpr b) as [f|] eqn:Ib; try discriminate.
    apply implicit_iff in Ia, Ib. intros H. apply both_iff in H as (x & y & A & B & E). apply Nat.eqb_eq in E. subst y.
    unfold referenced in *. destruct (n_shape t) eqn:Ea; try discriminate. destruct (n_shape f) eqn:Eb; try discriminate.
    injection A as ->. injection B as ->. exists t, f. do 5 eexists. eauto.
  - intros (t & f & d & n & e & n' & e' & Ia & Ib & Ea & Eb). apply implicit_iff in Ia, Ib. rewrite Ia, Ib.
    apply both_iff. exists d, d. unfold referenced. rewrite Ea, Eb. repeat split. apply Nat.eqb_refl.
Qed.
Lemma choice_node n : redundant_choice n /\ RedundantConditional_visit n = [plainReport n]
  \/ ~ redundant_choice n /\ RedundantConditional_visit n = [].
Proof.
  unfold RedundantConditional_visit, redundant_choice.
  destruct (n_shape n) eqn:E; try (right; split; [intros (? & ? & ? & Q & _); discriminate Q|reflexivity]).
  assert (I : isNotEquals trueE falseE || isSameConstant trueE falseE || isSameVariable trueE falseE = true
              <-> operand opposite_literals trueE falseE \/ same_constant trueE falseE \/ same_variable trueE falseE).
  { rewrite !orb_true_iff, notEquals_iff, sameConstant_iff, sameVariable_iff. tauto. }
  destruct (isNotEquals trueE falseE || isSameConstant trueE falseE || isSameVariable trueE falseE); [left|right]; (split; [|reflexivity]).
  - exists cond, trueE, falseE. split; auto. now apply I.
  - intros (c & t & f & [= <- <- <-] & H). apply I in H. discriminate.
Qed.

(** ** Redundant if *)
Lemma extract_iff {A} (isa : node -> option A) n a :
  (forall m l, n_shape m = CompoundStmt l -> isa m = None) ->
  (extractStmt isa n = Some a <-> exists m, only_statement n m /\ isa m = Some a).
Proof.
  intros B. induction n as [n IH] using node_ind'. destruct n as [i t s]. cbn [extractStmt]. split.
  - destruct (isa (Node i t s)) as [x|] eqn:E.
    + intros [= ->]. eexists. split; [apply os_self|exact E].
    + destruct s; try discriminate. destruct body as [|m [|? ?]]; try discriminate. intros H.
      apply IH in H as (m' & O & H); [|simpl; auto]. exists m'. split; auto. eapply os_block; [reflexivity|auto].
  - intros (m & O & H). inversion O as [|? m1 ? E O1]; subst.
    + now rewrite H.
    + rewrite (B (Node i t s) _ E). simpl in E. subst s. apply IH; [simpl; auto|]. eauto.
Qed.
Lemma extractOpt_iff {A} (isa : node -> option A) o a :
  (forall m l, n_shape m = CompoundStmt l -> isa m = None) ->
  (extractOpt isa o = Some a <-> exists n m, o = Some n /\ only_statement n m /\ isa m = Some a).
Proof.
  intros B. unfold extractOpt. destruct o as [n|].
  - rewrite extract_iff by exact B. split; [intros (m & H); exists n, m; tauto|intros (n' & m & [= <-] & H); eauto].
  - split; [discriminate|intros (? & ? & [=] & _)].
Qed.
Lemma returnValue_iff n v : returnValue n = Some (Some v) <-> returns n v.
Proof. unfold returnValue, returns. destruct (n_shape n); split; congruence. Qed.
Lemma rightHand_iff n v : rightHandSide n = Some v <-> has_right_operand n v.
Proof.
  unfold rightHandSide, has_right_operand. destruct (n_shape n); split; try discriminate; try (intros (? & ? & [=])).
  - intros [= <-]. eauto.
  - congruence.
Qed.
Lemma redundant_if_node n : redundant_if n /\ RedundantIf_visit n = [plainReport n]
  \/ ~ redundant_if n /\ RedundantIf_visit n = [].
Proof.
  unfold RedundantIf_visit, redundant_if.
  destruct (n_shape n) eqn:E; try (right; split; [intros (? & ? & ? & ? & Q & _); discriminate Q|reflexivity]).
  assert (B1 : forall m l, n_shape m = CompoundStmt l -> returnValue m = None) by (intros m l H; unfold returnValue; now rewrite H).
  assert (B2 : forall m l, n_shape m = CompoundStmt l -> rightHandSide m = None) by (intros m l H; unfold rightHandSide; now rewrite H).
  set (b := doesReturnStatementsViolateRule _ _ || _).
  assert (I : b = true <-> exists e, elseS = Some e /\ exists t' e' a b, only_statement thenS t' /\ only_statement e e' /\ opposite_literals a b
     /\ ((returns t' a /\ returns e' b) \/ (has_right_operand t' a /\ has_right_operand e' b))).
  { subst b. rewrite orb_true_iff. split.
    - intros [H|H].
      + unfold doesReturnStatementsViolateRule in H.
        destruct (extractStmt returnValue thenS) as [[x|]|] eqn:X; try discriminate.
        destruct (extractOpt returnValue elseS) as [[y|]|] eqn:Y; try discriminate.
        apply opposite_iff in H. apply extract_iff in X as (t' & O & X); auto. apply extractOpt_iff in Y as (e & e' & -> & O' & Y); auto.
        apply returnValue_iff in X, Y. exists e. split; auto. exists t', e', x, y. auto 8.
      + unfold doesBinaryOperatorsViolateRule in H.
        destruct (extractStmt rightHandSide thenS) as [x|] eqn:X; try discriminate.
        destruct (extractOpt rightHandSide elseS) as [y|] eqn:Y; try discriminate.
        apply opposite_iff in H. apply extract_iff in X as (t' & O & X); auto. apply extractOpt_iff in Y as (e & e' & -> & O' & Y); auto.
        apply rightHand_iff in X, Y. exists e. split; auto. exists t', e', x, y. auto 8.
    - intros (e & -> & t' & e' & x & y & O & O' & OP & [[X Y]|[X Y]]); [left|right].
      + apply returnValue_iff in X, Y. unfold doesReturnStatementsViolateRule.
        rewrite (proj2 (extract_iff returnValue thenS (Some x) B1)), (proj2 (extractOpt_iff returnValue (Some e) (Some y) B1)) by eauto 6.
        now apply opposite_iff.
      + apply rightHand_iff in X, Y. unfold doesBinaryOperatorsViolateRule.
        rewrite (proj2 (extract_iff rightHandSide thenS x B2)), (proj2 (extractOpt_iff rightHandSide (Some e) y B2)) by eauto 6.
        now apply opposite_iff. }
  destruct b; [left|right]; (split; [|reflexivity]).
  - destruct I as [I _]. destruct (I eq_refl) as (e & -> & H). exists pre, cond, thenS, e. auto.
  - intros (p & c & t & e & [= <- <- <- ->] & H). destruct I as [_ I]. assert (false = true) by eauto. discriminate.
Qed.

(** ** Redundant local variable *)
Lemma lastTwo_iff l a b : lastTwo l = Some (a, b) <-> exists l', l = l' ++ [a; b].
Proof.
  split.
  - induction l as [|x [|y [|z l]] IH]; try discriminate.
    + intros [= <- <-]. now exists [].
    + intros H. destruct (IH H) as [l' E]. exists (x :: l'). now rewrite E.
  - intros [l' ->]. induction l' as [|x l' IH]; [reflexivity|].
    cbn [app]. destruct l' as [|y [|z l']]; [reflexivity|reflexivity|exact IH].
Qed.
Lemma names_iff d name : declaredName d = Some name <-> names d name.
Proof.
  unfold declaredName, names. split.
  - destruct (n_shape d) eqn:E; try discriminate.
    + intros [= <-]. left. eauto.
    + intros [= <-]. right. left. eauto 6.
    + destruct (r_class info) eqn:F. intros [= <-]. right. right. do 7 eexists. eauto.
  - intros [(v & i & -> & <-)|[(f & ps & b & -> & <-)|(r & l & i & h & p & x & bs & -> & ->)]]; reflexivity.
Qed.
Lemma returned_iff n name : returnedName n = Some name <-> exists v e r, returns n v /\ implicitly v e /\ refers e r name.
Proof.
  unfold returnedName, returns, refers. split.
  - destruct (n_shape n) eqn:E; try discriminate. destruct value as [v|]; try discriminate.
    destruct (extractFromImplicitCastExpr v) as [e|] eqn:F; try discriminate. apply implicit_iff in F.
    destruct (n_shape e) eqn:G; try discriminate. intros [= <-]. exists v, e. eexists. eauto.
  - intros (v & e & r & -> & F & [x G]). apply implicit_iff in F. now rewrite F, G.
Qed.
Lemma singleDecl_iff n d : singleDecl n = Some d <-> n_shape n = DeclStmt [d].
Proof. unfold singleDecl. destruct (n_shape n); try (split; congruence). destruct decls as [|x [|? ?]]; split; congruence. Qed.
Lemma local_node n :
  (exists d, declared_then_returned n d /\ RedundantLocal_visit n = [Report d []])
  \/ (forall d, ~ declared_then_returned n d) /\ RedundantLocal_visit n = [].
Proof.
  assert (I : forall d, declared_then_returned n d <-> exists l a b name, n_shape n = CompoundStmt l /\ lastTwo l = Some (a, b)
     /\ returnedName b = Some name /\ singleDecl a = Some d /\ declaredName d = Some name).
  { intros d. unfold declared_then_returned. split.
    - intros (l & a & b & v & e & name & r & E & D & N & R & V & F). exists (l ++ [a; b]), a, b, name. split; auto.
      split; [apply lastTwo_iff; eauto|]. split; [apply returned_iff; eauto 6|]. split; [now apply singleDecl_iff|now apply names_iff].
    - intros (l & a & b & name & E & L & R & D & N). apply lastTwo_iff in L as [l' ->]. apply returned_iff in R as (v & e & r & R1 & R2 & R3).
      apply singleDecl_iff in D. apply names_iff in N. exists l', a, b, v, e, name, r. auto 7. }
  unfold RedundantLocal_visit. destruct (n_shape n) eqn:E;
    try (right; split; [intros d H; apply I in H as (? & ? & ? & ? & Q & _); discriminate Q|reflexivity]).
  destruct (lastTwo body) as [[a b]|] eqn:L;
    [|right; split; [intros d H; apply I in H as (? & ? & ? & ? & [= <-] & Q & _); congruence|reflexivity]].
  destruct (returnedName b) as [name|] eqn:R;
    [|right; split; [intros d H; apply I in H as (? & ? & ? & ? & [= <-] & Q & Q' & _); rewrite L in Q; injection Q as <- <-; congruence|reflexivity]].
  destruct (singleDecl a) as [d|] eqn:D;
    [|right; split; [intros d H; apply I in H as (? & ? & ? & ? & [= <-] & Q & _ & Q' & _); rewrite L in Q; injection Q as <- <-; congruence|reflexivity]].
  assert (J : forall d', declared_then_returned n d' -> d' = d /\ declaredName d = Some name).
  { intros d' H. apply I in H as (? & ? & ? & ? & [= <-] & Q & Q1 & Q2 & Q3). rewrite L in Q. injection Q as <- <-.
    assert (d' = d) by congruence. subst. split; congruence. }
  destruct (declaredName d) as [name'|] eqn:N;
    [|right; split; [intros d' H; destruct (J _ H); congruence|reflexivity]].
  destruct (str_eqb name name') eqn:S.
  - apply str_eqb_eq in S. subst name'. left. exists d. split; [|reflexivity]. apply I. exists body, a, b, name. auto.
  - right. split; [|reflexivity]. intros d' H. destruct (J _ H) as [_ Q]. injection Q as ->.
    assert (str_eqb name name = true) by now apply str_eqb_eq. congruence.
Qed.

(** ** Unnecessary else *)
Lemma branches_iff n : areAllBranchesReturn n = true <-> always_returns n.
Proof.
  induction n as [n IH] using node_ind'. destruct n as [i ty s]. split.
  - destruct s; try discriminate.
    + cbn. intros H. apply existsb_exists in H as (m & Hm & H). eapply ar_block; [reflexivity|exact Hm|]. apply IH; auto.
    + destruct elseS as [e|]; try discriminate. cbn. intros H. apply andb_true_iff in H as [H1 H2].
      eapply ar_if; [reflexivity| |]; apply IH; auto; unfold kids; simpl; apply in_or_app; simpl; auto.
    + intros _. eapply ar_return. reflexivity.
  - inversion 1; subst; simpl in *; subst; auto.
    + apply existsb_exists. exists m. split; auto. apply IH; auto.
    + apply andb_true_iff. split; apply IH; auto; unfold kids; simpl; apply in_or_app; simpl; auto.
Qed.
Lemma isIf_iff n : isIf n = true <-> an_if n.
Proof.
  unfold isIf, an_if. destruct (n_shape n); split; try discriminate; try (intros (? & ? & ? & ? & Q); discriminate Q).
  - intros _. do 4 eexists. reflexivity.
  - reflexivity.
Qed.
(** [later n m]: [m] is [n] or an else-if of its chain *)
Inductive later : node -> node -> Prop :=
| la_self : forall n, later n n
| la_next : forall n p c t m k, n_shape n = IfStmt p c t (Some m) -> an_if m -> later m k -> later n k.
Lemma elseChain_members n k : an_if n -> (In k (fst (elseChain n)) <-> later n k).
Proof.
  induction n as [n IH] using node_ind'. destruct n as [i ty s]. intros (p & c & t & e & E). simpl in E. subst s.
  destruct e as [e|]; cbn [elseChain].
  - destruct (isIf e) eqn:F.
    + apply isIf_iff in F. cbn [fst In]. rewrite IH; [|unfold kids; simpl; apply in_or_app; simpl; auto|exact F]. split.
      * intros [<-|H]; [apply la_self|]. eapply la_next; [reflexivity|auto|auto].
      * inversion 1; subst; [auto|]. right. simpl in *. congruence.
    + cbn. split.
      * intros [<-|[]]. apply la_self.
      * inversion 1; subst; auto. simpl in *. assert (m = e) by congruence. subst. apply isIf_iff in H1. congruence.
  - cbn. split.
    + intros [<-|[]]. apply la_self.
    + inversion 1; subst; auto. simpl in *. congruence.
Qed.
Lemma elseChain_chain n : an_if n ->
  match snd (elseChain n) with
  | Some e => exists ts, chain n ts e /\ (allThensReturn (fst (elseChain n)) = true <-> Forall always_returns ts)
  | None => forall ts e, ~ chain n ts e
  end.
Proof.
  induction n as [n IH] using node_ind'. destruct n as [i ty s]. intros (p & c & t & e & E). simpl in E. subst s.
  destruct e as [e|]; cbn [elseChain].
  - destruct (isIf e) eqn:F.
    + pose proof F as F'. apply isIf_iff in F. cbn [fst snd].
      specialize (IH e). assert (K : In e (kids (Node i ty (IfStmt p c t (Some e))))) by (unfold kids; simpl; apply in_or_app; simpl; auto).
      specialize (IH K F). destruct (snd (elseChain e)) as [x|].
      * destruct IH as (ts & C & A). exists (t :: ts). split; [eapply ch_more; [reflexivity|exact C]|].
        unfold allThensReturn in *. cbn [forallb n_shape]. rewrite andb_true_iff, A, branches_iff, Forall_cons_iff. tauto.
      * intros ts x C. inversion C; subst; simpl in *.
        -- match goal with K : IfStmt _ _ _ _ = _ |- _ => injection K as <- <- <- -> end. auto.
        -- match goal with K : IfStmt _ _ _ _ = _ |- _ => injection K as <- <- <- -> end. eapply IH; eauto.
    + cbn [fst snd]. exists [t]. split.
      * eapply ch_last; [reflexivity|]. rewrite <- isIf_iff. congruence.
      * unfold allThensReturn. cbn [forallb n_shape]. rewrite andb_true_r, branches_iff. split; [auto|]. inversion 1; auto.
  - cbn. intros ts x C. inversion C; subst; simpl in *; discriminate.
Qed.
Lemma chain_det n ts e : chain n ts e -> forall ts' e', chain n ts' e' -> ts = ts' /\ e = e'.
Proof.
  induction 1 as [n p c t e E N|n p c t m ts e E C IH]; intros ts' e' C'; inversion C'; subst.
  - split; congruence.
  - exfalso. assert (m = e) by congruence. subst. apply N. inversion H0; subst; do 4 eexists; eauto.
  - exfalso. assert (m = e') by congruence. subst. match goal with K : ~ an_if _ |- _ => apply K end. inversion C; subst; do 4 eexists; eauto.
  - assert (m0 = m) by congruence. subst. destruct (IH _ _ H0) as [-> ->]. split; congruence.
Qed.

(** Traversal in depth-first order, and what was visited before *)
Lemma stateful_nodes {S} (visit : node -> S -> S * list report) roots : forall init,
  fold_left (fun st root => snd (traverse (stateful_visit visit) root st)) roots init
  = fold_left (fun st m => snd (stateful_visit visit m st)) (all_nodes roots) init.
Proof.
  unfold all_nodes. induction roots as [|r roots IH]; intros init; cbn [fold_left flat_map]; auto.
  rewrite fold_left_app, IH. f_equal. rewrite traverse_nodes, visit_all_true; [reflexivity|].
  intros m [s rs] _. unfold stateful_visit. destruct (visit m s). reflexivity.
Qed.
Lemma nodes_contiguous root m : below root m -> exists a b, nodes root = a ++ nodes m ++ b.
Proof.
  induction 1 as [n|n c m Hc H (a & b & E)].
  - exists [], []. now rewrite app_nil_r.
  - rewrite nodes_eq. apply in_split in Hc as (l1 & l2 & ->). rewrite flat_map_app. cbn [flat_map]. rewrite E.
    exists (n :: flat_map nodes l1 ++ a), (b ++ flat_map nodes l2). cbn. now rewrite <- !app_assoc.
Qed.
Lemma all_contiguous roots root m : In root roots -> below root m -> exists a b, all_nodes roots = a ++ nodes m ++ b.
Proof.
  intros Hr H. apply nodes_contiguous in H as (a & b & E). apply in_split in Hr as (l1 & l2 & ->).
  unfold all_nodes. rewrite flat_map_app. cbn [flat_map]. rewrite E.
  exists (flat_map nodes l1 ++ a), (b ++ flat_map nodes l2). now rewrite <- !app_assoc.
Qed.
Lemma in_all roots m : In m (all_nodes roots) <-> exists root, In root roots /\ below root m.
Proof.
  unfold all_nodes. rewrite in_flat_map. split; intros (r & Hr & H); exists r; split; auto; now apply in_nodes.
Qed.
Lemma distinct_inj roots a b : distinct_nodes roots -> In a (all_nodes roots) -> In b (all_nodes roots) -> n_id a = n_id b -> a = b.
Proof.
  unfold distinct_nodes. generalize (all_nodes roots) as l. intros l N Ha Hb E.
  apply in_split in Ha as (l1 & l2 & ->). rewrite map_app in N. cbn in N. apply NoDup_remove_2 in N.
  apply in_app_or in Hb as [Hb|[Hb|Hb]]; auto; exfalso; apply N, in_or_app; [left|right]; rewrite E; now apply in_map.
Qed.
Lemma split_unique {A} (l1 l2 l1' l2' : list A) x : NoDup (l1 ++ x :: l2) -> l1 ++ x :: l2 = l1' ++ x :: l2' -> l1 = l1'.
Proof.
  revert l1'. induction l1 as [|a l1 IH]; intros [|b l1'] N E; cbn in *; auto.
  - injection E as -> E. exfalso. inversion N; subst. apply H1. apply in_or_app. simpl. auto.
  - injection E as -> E. exfalso. inversion N; subst. apply H1. apply in_or_app. simpl. auto.
  - injection E as -> E. f_equal. inversion N; subst. eauto.
Qed.
(** A statement directly inside another one is visited after it. *)
Lemma parent_first roots m n l1 l2 : distinct_nodes roots -> all_nodes roots = l1 ++ n :: l2 ->
  In m (all_nodes roots) -> In n (kids m) -> In m l1.
Proof.
  intros D E Hm K. apply in_all in Hm as (root & Hr & B). destruct (all_contiguous _ _ _ Hr B) as (a & b & F).
  assert (N : NoDup (all_nodes roots)) by (eapply NoDup_map_inv; exact D).
  rewrite nodes_eq in F. apply in_split in K as (k1 & k2 & K). rewrite K, flat_map_app in F. cbn [flat_map] in F. rewrite (nodes_eq n) in F.
  cbn [app] in F. rewrite <- !app_assoc in F. cbn [app] in F.
  replace (a ++ m :: flat_map nodes k1 ++ n :: (flat_map nodes (kids n) ++ flat_map nodes k2) ++ b)
    with ((a ++ m :: flat_map nodes k1) ++ n :: ((flat_map nodes (kids n) ++ flat_map nodes k2) ++ b)) in F
    by (now rewrite <- app_assoc).
  assert (l1 = a ++ m :: flat_map nodes k1) as ->.
  { rewrite E in F, N. eapply split_unique; eauto. }
  apply in_or_app. simpl. auto.
Qed.
Lemma later_kid m k : later m k -> m = k \/ exists p x y c, an_if k /\ later m x /\ n_shape x = IfStmt p c y (Some k).
Proof.
  induction 1 as [n|n p c t m k E A L IH]; auto. right. destruct IH as [->|(p' & x & y & c' & A' & L' & E')].
  - exists p, n, t, c. split; auto. split; auto. apply la_self.
  - exists p', x, y, c'. split; auto. split; auto. eapply la_next; eauto.
Qed.
Lemma later_below m k : later m k -> below m k.
Proof.
  induction 1; [apply below_self|]. eapply below_child; [|eassumption]. unfold kids. rewrite H. simpl. apply in_or_app. simpl. auto.
Qed.

Definition else_report (n : node) : list report :=
  match snd (elseChain n) with
  | Some e => if allThensReturn (fst (elseChain n)) then [plainReport e] else []
  | None => []
  end.
Definition headb (visited : list nat) (n : node) : bool := isIf n && negb (existsb (Nat.eqb (n_id n)) visited).
Lemma else_visit n visited : UnnecessaryElse_visit n visited =
  if headb visited n then (visited ++ map n_id (fst (elseChain n)), else_report n) else (visited, []).
Proof.
  unfold UnnecessaryElse_visit, headb, else_report. destruct (isIf n); [|reflexivity].
  destruct (existsb _ visited); [reflexivity|]. destruct (elseChain n). reflexivity.
Qed.
Lemma visited_in i visited : existsb (Nat.eqb i) visited = true <-> In i visited.
Proof. rewrite existsb_exists. split; [intros (x & H & E); apply Nat.eqb_eq in E; now subst|intros H; exists i; split; auto; apply Nat.eqb_refl]. Qed.

Lemma else_run roots : distinct_nodes roots -> forall l2 l1 visited rs,
  all_nodes roots = l1 ++ l2 ->
  (forall i, In i visited <-> exists m k, In m l1 /\ an_if m /\ later m k /\ n_id k = i) ->
  exists sel, sublist_where (starts_chain roots) l2 sel /\
    snd (fold_left (fun st m => snd (stateful_visit UnnecessaryElse_visit m st)) l2 (visited, rs))
    = rs ++ flat_map else_report sel.
Proof.
  intros D. induction l2 as [|n l2 IH]; intros l1 visited rs E V.
  - exists []. split; [constructor|]. cbn. now rewrite app_nil_r.
  - cbn [fold_left]. unfold stateful_visit at 2. rewrite else_visit.
    assert (Hn : In n (all_nodes roots)) by (rewrite E; apply in_or_app; simpl; auto).
    assert (IN : forall m, In m l1 -> In m (all_nodes roots)) by (intros m Hm; rewrite E; apply in_or_app; auto).
    assert (H : headb visited n = true <-> starts_chain roots n).
    { unfold headb, starts_chain. rewrite andb_true_iff, negb_true_iff, isIf_iff. split.
      - intros [A B]. split; auto. intros root m p c t Hr Hb Em.
        assert (Hm : In m l1).
        { eapply parent_first; eauto; [apply in_all; eauto|]. unfold kids. rewrite Em. simpl. apply in_or_app. simpl. auto. }
        assert (existsb (Nat.eqb (n_id n)) visited = true); [|congruence].
        apply visited_in, V. exists m, n. repeat split; auto; [do 4 eexists; eauto|]. eapply la_next; eauto. apply la_self.
      - intros [A B]. split; auto. apply not_true_is_false. intros X. apply visited_in, V in X as (m & k & Hm & Am & L & Ei).
        assert (Bm : exists root, In root roots /\ below root m) by (apply in_all; auto). destruct Bm as (root & Hr & Hb).
        assert (k = n).
        { eapply distinct_inj; eauto. apply in_all. exists root. split; auto. eapply below_trans; eauto using later_below. }
        subst k. apply later_kid in L as [->|(p & x & y & c & _ & L & Ex)].
        + unfold distinct_nodes in D. rewrite E, map_app in D. cbn in D. apply NoDup_remove_2 in D. apply D, in_or_app. left. now apply in_map.
        + eapply B; [exact Hr| |exact Ex]. eapply below_trans; eauto using later_below. }
    destruct (headb visited n) eqn:HB.
    + assert (SC : starts_chain roots n) by now apply H. pose proof SC as [A _]. cbn [snd].
      destruct (IH (l1 ++ [n]) (visited ++ map n_id (fst (elseChain n))) (rs ++ else_report n)) as (sel & S & R).
      * rewrite <- app_assoc. exact E.
      * intros i. rewrite in_app_iff, V, in_map_iff. split.
        -- intros [(m & k & Hm & Q)|(k & Ek & Hk)]; [exists m, k; rewrite in_app_iff; tauto|].
           apply elseChain_members in Hk; auto. exists n, k. rewrite in_app_iff. simpl. tauto.
        -- intros (m & k & Hm & Am & L & Ei). apply in_app_or in Hm as [Hm|[<-|[]]]; [left; exists m, k; tauto|].
           right. exists k. split; auto. now apply elseChain_members.
      * exists (n :: sel). split; [now constructor|]. rewrite R. cbn [flat_map]. now rewrite <- app_assoc.
    + cbn [snd]. destruct (IH (l1 ++ [n]) visited (rs ++ [])) as (sel & S & R).
      * rewrite <- app_assoc. exact E.
      * intros i. rewrite V. split.
        -- intros (m & k & Hm & Q). exists m, k. rewrite in_app_iff. tauto.
        -- intros (m & k & Hm & Am & L & Ei). apply in_app_or in Hm as [Hm|[<-|[]]]; [exists m, k; tauto|].
           (* [n] was visited as part of a chain, and so was the rest of it *)
           unfold headb in HB. rewrite (proj2 (isIf_iff n) Am) in HB. cbn in HB. apply negb_false_iff, visited_in, V in HB as (m' & k' & Hm' & Am' & L' & Ei').
           assert (k' = n).
           { eapply distinct_inj; eauto. apply IN, in_all in Hm' as (root & Hr & Hb). apply in_all. exists root. split; auto.
             eapply below_trans; eauto using later_below. }
           subst k'. exists m', k. repeat split; auto. clear -L' L.
           induction L'; auto. eapply la_next; eauto.
      * exists sel. split; [|rewrite R, app_nil_r; reflexivity]. constructor; auto. rewrite <- H. discriminate.
Qed.
Lemma else_report_spec n : an_if n ->
  (exists ts e, chain n ts e /\ Forall always_returns ts /\ else_report n = [Report e []])
  \/ (~ exists ts e, chain n ts e /\ Forall always_returns ts) /\ else_report n = [].
Proof.
  intros A. unfold else_report. pose proof (elseChain_chain n A) as C. destruct (snd (elseChain n)) as [e|].
  - destruct C as (ts & C & I). destruct (allThensReturn (fst (elseChain n))).
    + left. exists ts, e. split; auto. split; [now apply I|reflexivity].
    + right. split; auto. intros (ts' & e' & C' & F). destruct (chain_det _ _ _ C _ _ C') as [<- <-]. apply I in F. discriminate.
  - right. split; auto. intros (ts & e & C' & _). eapply C; eauto.
Qed.

(** ** Parentheses *)
Lemma parentheses_node n :
  (exists m, useless_parentheses n m /\ UselessParentheses_visit n = [Report m []])
  \/ ((forall m, ~ useless_parentheses n m) /\ UselessParentheses_visit n = []).
Proof.
  unfold UselessParentheses_visit, addParenExprToViolation.
  assert (P : forall e, (exists x, n_shape e = ParenExpr x)
    /\ match n_shape e with ParenExpr _ => [plainReport e] | _ => [] end = [Report e []]
    \/ (~ exists x, n_shape e = ParenExpr x) /\ match n_shape e with ParenExpr _ => [plainReport e] | _ => [] end = []).
  { intros e. destruct (n_shape e) eqn:E; try (right; split; [intros [x X]; discriminate|reflexivity]). left. split; eauto. }
  destruct (n_shape n) eqn:E;
    try (right; split; [intros m [W _]; inversion W; congruence|reflexivity]).
  - destruct (P cond) as [[X ->]|[X ->]]; [left; exists cond; split; auto; split; auto; eapply we_cond; eauto|].
    right. split; auto. intros m [W Y]. inversion W; subst; try congruence. apply X. replace cond with m by congruence. auto.
  - destruct value as [v|]; [|right; split; [intros m [W _]; inversion W; congruence|reflexivity]].
    destruct (P v) as [[X ->]|[X ->]]; [left; exists v; split; auto; split; auto; eapply we_return; eauto|].
    right. split; auto. intros m [W Y]. inversion W; subst; try congruence. apply X. replace v with m by congruence. auto.
  - destruct init as [v|]; [|right; split; [intros m [W _]; inversion W; congruence|reflexivity]].
    destruct (P v) as [[X ->]|[X ->]]; [left; exists v; split; auto; split; auto; eapply we_init; eauto|].
    right. split; auto. intros m [W Y]. inversion W; subst; try congruence. apply X. replace v with m by congruence. auto.
Qed.

(** ** Null check before delete *)
Definition castOf (n : node) : option (castkind * node) :=
  match n_shape n with
  | ImplicitCastExpr k m | CStyleCastExpr k m | OtherCastExpr k m => Some (k, m)
  | _ => None
  end.
Lemma castOf_iff n k m : castOf n = Some (k, m) <-> casts n k m.
Proof.
  unfold castOf. split.
  - destruct (n_shape n) eqn:E; try discriminate; intros [= -> ->]; eauto using casts.
  - inversion 1; subst; now rewrite H0.
Qed.
Lemma null_step n : isANullPointerExpr n =
  match castOf n with Some (k, m) => castkind_eqb k CK_NullToPointer || isANullPointerExpr m | None => false end.
Proof. destruct n as [i r []]; reflexivity. Qed.
Lemma uncast_step n : ignoreCastExpr n = match castOf n with Some (_, m) => ignoreCastExpr m | None => n end.
Proof. destruct n as [i r []]; reflexivity. Qed.
Lemma cast_kid n k m : castOf n = Some (k, m) -> In m (kids n).
Proof. unfold castOf, kids. destruct (n_shape n); try discriminate; intros [= _ ->]; simpl; auto. Qed.
Lemma castkind_null k : castkind_eqb k CK_NullToPointer = true <-> k = CK_NullToPointer.
Proof. unfold castkind_eqb. destruct (castkind_eq_dec k CK_NullToPointer); split; congruence. Qed.
Lemma null_pointer_iff n : isANullPointerExpr n = true <-> null_pointer n.
Proof.
  induction n as [n IH] using node_ind'. rewrite null_step. destruct (castOf n) as [[k m]|] eqn:C.
  - rewrite orb_true_iff, castkind_null, (IH m) by (eapply cast_kid; eauto). apply castOf_iff in C. split.
    + intros [->|H]; [eapply np_here; eauto|eapply np_below; eauto].
    + apply castOf_iff in C. intros H. inversion H as [? ? K|? ? ? K L]; subst; apply castOf_iff in K; rewrite C in K; injection K as -> ->; auto.
  - split; [discriminate|]. intros H. inversion H as [? ? K|? ? ? K L]; subst; apply castOf_iff in K; congruence.
Qed.
Lemma uncast_iff n e : uncast n e <-> ignoreCastExpr n = e.
Proof.
  revert e. induction n as [n IH] using node_ind'. intros e. rewrite uncast_step. destruct (castOf n) as [[k m]|] eqn:C.
  - rewrite <- (IH m) by (eapply cast_kid; eauto). split.
    + intros H. inversion H as [? K|? ? ? ? K L]; subst; [exfalso; eapply K, castOf_iff; eauto|].
      apply castOf_iff in K. rewrite C in K. now injection K as -> ->.
    + apply castOf_iff in C. intros H. eapply un_cast; eauto.
  - split.
    + intros H. inversion H as [? K|? ? ? ? K L]; subst; auto. apply castOf_iff in K. congruence.
    + intros <-. apply un_done. intros k m K. apply castOf_iff in K. congruence.
Qed.
Lemma not_null_test_iff c e : not_null_test c e <-> IsCondNoNullPointer c = Some e.
Proof.
  unfold IsCondNoNullPointer. split.
  - intros H. inversion H as [? l r ? E N U|? l r ? E N N' U|? ? B U]; subst.
    + rewrite E, (proj2 (null_pointer_iff l) N). f_equal. now apply uncast_iff.
    + rewrite E, (proj2 (null_pointer_iff r) N'). destruct (isANullPointerExpr l) eqn:L; [apply null_pointer_iff in L; tauto|].
      f_equal. now apply uncast_iff.
    + apply uncast_iff in U. destruct (n_shape c) eqn:E; try congruence. exfalso. apply B. do 3 eexists. eauto.
  - assert (P : ~ binary c -> Some (ignoreCastExpr c) = Some e -> not_null_test c e).
    { intros B [= K]. apply nt_plain; auto. now apply uncast_iff. }
    unfold binary in P. destruct (n_shape c) eqn:E; intros H; try (apply P; [intros (? & ? & ? & X); discriminate|exact H]).
    rename lhs into l, rhs into r.
    destruct op; try discriminate. destruct (isANullPointerExpr l) eqn:L.
    + injection H as H. eapply nt_left; eauto; [now apply null_pointer_iff|now apply uncast_iff].
    + destruct (isANullPointerExpr r) eqn:R; [|discriminate]. injection H as H. eapply nt_right; eauto.
      * rewrite <- null_pointer_iff, L. discriminate.
      * now apply null_pointer_iff.
      * now apply uncast_iff.
Qed.
Section Dealloc.
  Variable same : node -> node -> bool.
  Lemma deletes_iff n e : IsADeleteStmt same n e = true <-> deletes same n e.
  Proof.
    unfold IsADeleteStmt, deletes. split.
    - destruct (n_shape n); try discriminate. intros H. do 2 eexists. split; eauto. split; [apply uncast_iff; reflexivity|exact H].
    - intros (a & a' & E & U & S). rewrite E. apply uncast_iff in U. now subst.
  Qed.
  Lemma assigns_null_iff n e : IsAnAssignToNullptr same n e = true <-> assigns_null same n e.
  Proof.
    unfold IsAnAssignToNullptr, assigns_null. split.
    - destruct (n_shape n); try discriminate. destruct op; try discriminate. intros H. apply andb_true_iff in H as [N S].
      do 3 eexists. split; eauto. split; [now apply null_pointer_iff|]. split; [apply uncast_iff; reflexivity|exact S].
    - intros (l & r & l' & E & N & U & S). rewrite E. apply uncast_iff in U. subst. apply null_pointer_iff in N. now rewrite N.
  Qed.
  Lemma deleteBlock_iff t e : IsADeleteBlock same t e = true <->
    (deletes same t e \/ (exists d, n_shape t = CompoundStmt [d] /\ deletes same d e)
     \/ (exists d z, n_shape t = CompoundStmt [d; z] /\ deletes same d e /\ assigns_null same z e)).
  Proof.
    split.
    - unfold IsADeleteBlock. destruct (n_shape t) eqn:E; try (rewrite deletes_iff; now left).
      destruct body as [|d [|z [|]]]; try discriminate.
      + rewrite deletes_iff. eauto.
      + rewrite andb_true_iff, deletes_iff, assigns_null_iff. intros []. right. right. eauto.
    - intros [H|[(d & E & H)|(d & z & E & H & K)]].
      + pose proof H as (a & a' & E & _). unfold IsADeleteBlock. rewrite E. now apply deletes_iff.
      + unfold IsADeleteBlock. rewrite E. now apply deletes_iff.
      + unfold IsADeleteBlock. rewrite E, andb_true_iff, deletes_iff, assigns_null_iff. auto.
  Qed.
  Lemma guarded_node n :
    (guarded_delete same n /\ UnnecessaryNullCheck_visit same n = [Report n []])
    \/ (~ guarded_delete same n /\ UnnecessaryNullCheck_visit same n = []).
  Proof.
    unfold UnnecessaryNullCheck_visit.
    destruct (n_shape n) eqn:E; try (right; split; [intros (p & c' & t' & e' & X & _); congruence|reflexivity]).
    rename cond into c, thenS into t. destruct elseS as [e|]; [right; split; [intros (p & c' & t' & e' & X & _); congruence|reflexivity]|].
    destruct (IsCondNoNullPointer c) as [e|] eqn:C.
    - destruct (IsADeleteBlock same t e) eqn:B.
      + left. split; auto. exists pre, c, t, e. split; auto. split; [now apply not_null_test_iff|now apply deleteBlock_iff].
      + right. split; auto. intros (p & c' & t' & e' & X & N & D). rewrite E in X. injection X as <- <- <-.
        apply not_null_test_iff in N. rewrite C in N. injection N as <-. apply deleteBlock_iff in D. congruence.
    - right. split; auto. intros (p & c' & t' & e' & X & N & D). rewrite E in X. injection X as <- <- <-.
      apply not_null_test_iff in N. congruence.
  Qed.
End Dealloc.

(** ** Taking an else away *)
Lemma returns_jump n : always_returns n -> always_jumps n.
Proof.
  induction 1.
  - apply aj_jump. right. right. left. eauto.
  - eapply aj_block; eauto.
  - eapply aj_if; eauto.
Qed.
Section Else.
  Context {st : Type} (atom : node -> st -> value -> st -> Prop) (select : node -> st -> option nat -> st -> Prop).
  Notation does := (does atom select).
  Notation dl := (dl atom select).
  Definition plain_return (t : node) : Prop := always_returns t /\ nothing_inside t.
  Lemma plain_return_ends t s s' : plain_return t -> ~ does t Start s Normal s'.
  Proof.
    intros [R N] [tr X]. eapply (jump_not_normal atom select t); eauto using returns_jump. now apply ol_none.
  Qed.
  Inductive guards : node -> node -> node -> Prop :=
  | gu_last : forall n n' c t e, n_shape n = IfStmt [] c t (Some e) -> n_shape n' = IfStmt [] c t None ->
      plain_return t -> guards n n' e
  | gu_more : forall n n' c t m m' e, n_shape n = IfStmt [] c t (Some m) -> guards m m' e ->
      n_shape n' = IfStmt [] c t (Some m') -> plain_return t -> guards n n' e.
  Lemma guards_start n n' e : guards n n' e -> forall s o s', does n Start s o s' <->
    (exists s1, does n' Start s Normal s1 /\ does e Start s1 o s') \/ (exists a, o = Abrupt a /\ does n' Start s (Abrupt a) s').
  Proof.
    induction 1 as [n n' c t e En En' P|n n' c t m m' e En G IH En' P]; intros s o s';
      rewrite (does_if atom select n _ _ _ _ _ _ _ En); setoid_rewrite (does_if atom select n' _ _ _ _ _ _ _ En').
    - split.
      + intros [(a & -> & H)|[(s1 & H & X)|(s1 & H & X)]].
        * right. exists a. split; auto. left. eauto.
        * destruct o as [|a]; [exfalso; eapply plain_return_ends; eauto|]. right. exists a. split; auto. right. left. eauto.
        * left. exists s1. split; auto. right. right. eauto.
      + intros [(s1 & [(a & [=] & _)|[(s2 & H & X)|(s2 & H & _ & ->)]] & Y)|(a & -> & [(a' & [= <-] & H)|[(s1 & H & X)|(s1 & H & [=] & _)]])].
        * exfalso. eapply plain_return_ends; eauto.
        * right. right. eauto.
        * left. eauto.
        * right. left. eauto.
    - setoid_rewrite IH. split.
      + intros [(a & -> & H)|[(s1 & H & X)|(s1 & H & [(s2 & X & Y)|(a & -> & X)])]].
        * right. exists a. split; auto. left. eauto.
        * destruct o as [|a]; [exfalso; eapply plain_return_ends; eauto|]. right. exists a. split; auto. right. left. eauto.
        * left. exists s2. split; auto. right. right. eauto.
        * right. exists a. split; auto. right. right. eauto.
      + intros [(s1 & [(a & [=] & _)|[(s2 & H & X)|(s2 & H & X)]] & Y)|(a & -> & [(a' & [= <-] & H)|[(s1 & H & X)|(s1 & H & X)]])].
        * exfalso. eapply plain_return_ends; eauto.
        * right. right. exists s2. split; eauto.
        * left. eauto.
        * right. left. eauto.
        * right. right. exists s1. split; eauto.
  Qed.
  Lemma guards_inside n n' e : guards n n' e -> forall en, (inside en n <-> inside en e) /\ ~ inside en n'.
  Proof.
    induction 1 as [n n' c t e En En' [_ P]|n n' c t m m' e En G IH En' [_ P]]; intros en;
      rewrite (inside_if atom select n _ _ _ _ en En), (inside_if atom select n' _ _ _ _ en En').
    - split; [|intros [H|(? & [=] & _)]; now apply (P en)].
      split; [intros [H|(? & [= <-] & H)]; auto; now apply P in H|eauto].
    - destruct (IH en) as [A B]. split; [|intros [H|(? & [= <-] & H)]; [now apply (P en)|auto]].
      rewrite <- A. split; [intros [H|(? & [= <-] & H)]; auto; now apply P in H|eauto].
  Qed.
  Lemma guards_into n n' e : guards n n' e -> forall en s o s', inside en e -> (does n en s o s' <-> does e en s o s').
  Proof.
    induction 1 as [n n' c t e En En' [_ P]|n n' c t m m' e En G IH En' [_ P]]; intros en s o s' I;
      rewrite (does_if_into atom select n _ _ _ _ _ _ _ _ En (start_or _ _ I)).
    - split; [intros [[-> ->]|[[H _]|(? & [= <-] & _ & H)]]; auto; [apply does_cut|now apply P in H]|eauto 6].
    - rewrite <- (IH en s o s' I). assert (inside en m) by now apply (guards_inside m m' e).
      split; [intros [[-> ->]|[[H' _]|(? & [= <-] & _ & H')]]; auto; [apply does_cut|now apply P in H']|eauto 6].
  Qed.
  Lemma guards_dl n n' e r : guards n n' e -> forall en s o s', dl (n :: r) en s o s' <-> dl (n' :: e :: r) en s o s'.
  Proof.
    intros G en s o s'. rewrite (dl_cons atom select n), (dl_cons atom select n'). setoid_rewrite (dl_cons atom select e).
    destruct (guards_inside n n' e G en) as [A B]. pose proof (guards_start n n' e G) as GS. split.
    - intros [[-> [(s1 & X & Y)|(a & -> & X)]]|[(E & I & X)|[I X]]].
      + apply GS in X as [(s2 & X & X')|(a & [=] & _)]. left. split; auto. left. exists s2. split; auto. left. eauto.
      + apply GS in X as [(s2 & X & X')|(a' & [= <-] & X)]; left; split; auto; [|right; eauto].
        left. exists s2. split; auto. left. eauto.
      + right. left. split; auto. split; auto. right. left. rewrite <- A. auto.
      + right. left. assert (Ie : inside en e) by now apply A. split; [eapply start_or; eauto|]. split; auto. right. right. split; auto.
        destruct X as [(s1 & X & Y)|(a & -> & X)]; [left; exists s1|right; exists a]; split; auto; apply (guards_into n n' e); auto.
    - intros [[-> [(s1 & X & [[_ Y]|[[E _]|[I _]]])|(a & -> & X)]]|[(E & _ & [[-> _]|[(_ & I & X)|[I X]]])|[I _]]].
      + left. split; auto. destruct Y as [(s2 & Y & Z)|(a & -> & Y)]; [left; exists s2|right; exists a]; split; auto; apply GS; eauto.
      + congruence.
      + now apply inside_not_start in I.
      + left. split; auto. right. exists a. split; auto. apply GS. eauto.
      + congruence.
      + right. left. rewrite A. auto.
      + right. right. rewrite A. split; auto.
        destruct X as [(s1 & X & Y)|(a & -> & X)]; [left; exists s1|right; exists a]; split; auto; apply (guards_into n n' e); auto.
      + tauto.
  Qed.
  Lemma without_guards n n' e : without_else n n' e -> forall ts, chain n ts e -> Forall plain_return ts -> guards n n' e.
  Proof.
    induction 1 as [n n' c t e En A En'|n n' c t m m' e En W IH En']; intros ts C F;
      inversion C as [? ? ? ? ? E B|? ? ? ? ? ? ? E D]; subst; rewrite En in E; injection E; intros; subst; inversion F; subst.
    - eapply gu_last; eauto.
    - exfalso. apply A. inversion D; subst; do 4 eexists; eauto.
    - exfalso. apply B. inversion W; subst; do 4 eexists; eauto.
    - eapply gu_more; eauto.
  Qed.
  Lemma else_exchange b b' l r n n' e : guards n n' e ->
    n_shape b = CompoundStmt (l ++ n :: r) -> n_shape b' = CompoundStmt (l ++ n' :: e :: r) -> equivalent atom select b b'.
  Proof.
    intros G Eb Eb' en s o s'. pose proof (guards_dl n n' e r G) as D.
    rewrite (does_compound atom select b _ _ _ _ _ Eb), (does_compound atom select b' _ _ _ _ _ Eb').
    assert (X : forall x y, (forall en s o s', dl x en s o s' -> dl y en s o s') -> dl (l ++ x) en s o s' -> dl (l ++ y) en s o s').
    { intros x y H K. eapply (exchange_tail atom select eq x y) in K as (? & <- & K); eauto. }
    split; intros [H|H]; auto; right; (eapply X; [|exact H]); intros; now apply D.
  Qed.
End Else.

(** ** Symmetry *)
Lemma same_kind_sym a b : same_kind a b -> same_kind b a.
Proof.
  intros [(x & y & A & B)|[(x & y & A & B)|(k & k' & x & y & A & B)]]; [left|right; left|right; right]; eauto 6.
Qed.
Lemma opposite_sym a b : opposite_literals a b -> opposite_literals b a.
Proof. intros [K (x & A & B)]. split; [now apply same_kind_sym|]. exists (negb x). now rewrite negb_involutive. Qed.
Lemma equal_sym a b : equal_literals a b -> equal_literals b a.
Proof. intros [K (x & A & B)]. split; [now apply same_kind_sym|]. eauto. Qed.
Lemma opposite_kind a b : opposite_literals a b -> same_kind a b.
Proof. now intros []. Qed.
Lemma equal_kind a b : equal_literals a b -> same_kind a b.
Proof. now intros []. Qed.
Lemma operand_sym (R : node -> node -> Prop) : (forall a b, R a b -> R b a) -> (forall a b, R a b -> same_kind a b) ->
  forall a b, operand R a b -> operand R b a.
Proof.
  intros S K a b H. inversion H as [? ? x y A B r|? ? a' b' A B N r]; subst; [eapply op_bare; eauto|].
  eapply op_cast; eauto. intros z Z. destruct (K _ _ r) as [(x & y & X & Y)|[(x & y & X & Y)|(k & k' & x & y & X & Y)]]; try congruence.
Qed.
Lemma same_constant_sym a b : same_constant a b -> same_constant b a.
Proof.
  intros H. inversion H; subst; [apply sc_bool; eapply operand_sym; eauto using equal_sym, equal_kind|eapply sc_int|eapply sc_float|eapply sc_char|eapply sc_string]; eauto.
Qed.
Lemma same_variable_sym a b : same_variable a b -> same_variable b a.
Proof. intros (t & f & d & n & e & n' & e' & A & B & C & D). exists f, t, d, n', e', n, e. auto. Qed.

(** ** Returns *)
Section Returns.
  Context {st : Type} (atom : node -> st -> value -> st -> Prop) (select : node -> st -> option nat -> st -> Prop).
  Notation does := (does atom select).
  Notation eval := (eval atom).
  Lemma does_return n e s o s' : returns n e -> (does n Start s o s' <->
    (o = Abrupt ACut /\ s' = s) \/ (exists b, eval e s (Truth b) s' /\ o = Abrupt (AReturn (Some b)))
    \/ (exists a, eval e s (Fails a) s' /\ o = Abrupt a)).
  Proof.
    intros E. unfold returns in E. split.
    - intros [t X]. xinv X; auto.
      + right. left. replace e with e0 by congruence. eauto.
      + right. right. replace e with e0 by congruence. eauto.
    - intros [(-> & ->)|[(b & H & ->)|(a & H & ->)]].
      + apply does_cut.
      + eexists. eapply x_return_value; eauto.
      + eexists. eapply x_return_fails; eauto.
  Qed.
  Lemma does_return_into n e en s o s' : returns n e -> en <> Start -> (does n en s o s' <-> o = Abrupt ACut /\ s' = s).
  Proof.
    intros E D. unfold returns in E. split.
    - intros [t X]. xinv X; try congruence; auto.
    - intros [-> ->]. apply does_cut.
  Qed.
  Lemma only_does_return n k e s o s' : only_statement n k -> returns k e -> (does n Start s o s' <->
    (o = Abrupt ACut /\ s' = s) \/ (exists b, eval e s (Truth b) s' /\ o = Abrupt (AReturn (Some b)))
    \/ (exists a, eval e s (Fails a) s' /\ o = Abrupt a)).
  Proof.
    intros O R. rewrite <- (does_return k e s o s' R). induction O as [n|n m k E O IH]; [reflexivity|].
    rewrite (does_block atom select n m Start s o s' E) by auto. auto.
  Qed.
  Lemma only_return_inside n k e en : only_statement n k -> returns k e -> ~ inside en n.
  Proof.
    intros O R. unfold returns in R. induction O as [n|n m k E O IH]; [|rewrite (inside_block n m en E); auto].
    apply no_labels; unfold enterable, labelled_statement; rewrite R; auto.
    intros [(? & ? & Q)|[(? & Q)|(? & ? & Q)]]; discriminate.
  Qed.
End Returns.
