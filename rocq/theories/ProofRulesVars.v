(** * Lemmas about the rules on variables *)
From Verif Require Import Base BaseFacts ModelConfig ModelAST ModelRules ModelRulesRedundant ModelRulesVars SpecFilter ProofFilter
  SpecAST ProofAST SpecRules ProofRules SpecRulesRedundant ProofRulesRedundant SpecRulesVars.
Local Arguments lit : simpl never.

(** ** Long names *)
Lemma size_app a b : size (a ++ b) = (size a + size b)%Z.
Proof. unfold size. rewrite app_length. lia. Qed.
Lemma shortened_iff name T : (3 <= size name)%Z -> (T + 10 < size name)%Z -> forall s,
  shortened name T = Val s <-> displayed T name s.
Proof.
  intros L G s. unfold shortened, substr_at. unfold size in *.
  replace ((0 <? 0)%Z || (Z.of_nat (length name) <? 0)%Z) with false
    by (symmetry; apply orb_false_iff; split; [reflexivity|apply Z.ltb_ge; lia]).
  replace ((Z.of_nat (length name) - 3 <? 0)%Z || (Z.of_nat (length name) <? Z.of_nat (length name) - 3)%Z) with false
    by (symmetry; apply orb_false_iff; split; apply Z.ltb_ge; lia).
  cbn [obind]. change (Z.to_nat 0) with 0. cbn [skipn].
  set (a := match (if (T + 3 <? 0)%Z then None else Some (Z.to_nat (T + 3))) with Some k => firstn k name | None => name end).
  set (b := firstn (length name) (skipn (Z.to_nat (Z.of_nat (length name) - 3)) name)).
  assert (B : b = skipn (length name - 3) name).
  { unfold b. rewrite firstn_all2; [f_equal; lia|]. rewrite skipn_length. lia. }
  assert (LB : size b = 3%Z) by (rewrite B; unfold size; rewrite skipn_length; lia).
  assert (Hb : name = firstn (length name - 3) name ++ b) by (rewrite B; symmetry; apply firstn_skipn).
  assert (A : exists x, name = a ++ x /\ (T + 3 < 0 /\ x = [] \/ size a = T + 3)%Z).
  { unfold a. destruct (T + 3 <? 0)%Z eqn:E.
    - apply Z.ltb_lt in E. exists []. rewrite app_nil_r. auto.
    - apply Z.ltb_ge in E. exists (skipn (Z.to_nat (T + 3)) name). split; [symmetry; apply firstn_skipn|]. right.
      unfold size. rewrite firstn_length. lia. }
  destruct A as (x & Ha & Hx). clear B. clearbody a b. split.
  - intros [= <-]. eapply di_short; eauto. unfold size. lia.
  - intros H. inversion H as [nm K Q1 Q2|nm a' b' x' y' K Ea Eb Ka Kb Q1 Q2]; subst nm; try subst s.
    + exfalso. unfold size in K. lia.
    + f_equal. assert (a' = a).
      { destruct Hx as [[N ->]|S], Ka as [[N' ->]|S'].
        - rewrite app_nil_r in Ea, Ha. congruence.
        - exfalso. unfold size in S'. lia.
        - exfalso. unfold size in S. lia.
        - rewrite Ea in Ha. assert (X : length a' = length a) by (unfold size in *; lia). clear - Ha X.
          revert a X Ha. induction a' as [|c l IH]; intros [|d m] X Ha; try discriminate; auto. cbn in *. injection Ha as -> Ha. f_equal. apply IH; auto. }
      assert (b' = b).
      { assert (X : length b' = length b) by (unfold size in *; lia). rewrite Eb in Hb at 1.
        assert (Y : rev (y' ++ b') = rev (firstn (length name - 3) name ++ b)) by now f_equal.
        rewrite !rev_app_distr in Y. rewrite <- (rev_involutive b'), <- (rev_involutive b). f_equal.
        assert (X' : length (rev b') = length (rev b)) by now rewrite !rev_length. clear - X' Y.
        revert X' Y. generalize (rev b') (rev b) (rev y') (rev (firstn (length name - 3) name)). intros l l0 u v X' Y.
        revert l0 X' Y. induction l as [|c l IH]; intros [|d m] X' Y; try discriminate; auto. cbn in *. injection Y as -> Y. f_equal. apply IH; auto. }
      now subst.
Qed.
Lemma long_node T n : (-8 <= T)%Z -> (forall name, variable_named n name -> (size name <= INT_MAX - 10)%Z) ->
  exists r, LongVariableName_visit T n = Val r
  /\ ((exists m, r = [Report n m] /\ long_name T n m) \/ ((forall m, ~ long_name T n m) /\ r = [])).
Proof.
  intros HT B. unfold LongVariableName_visit.
  destruct (n_shape n) eqn:E; try (eexists; split; [reflexivity|]; right; split; [intros m (a & b & (v & i & X & _) & _); congruence|reflexivity]).
  rename info into v. assert (V : variable_named n (v_name v)) by (do 2 eexists; eauto).
  assert (U : forall name, variable_named n name -> name = v_name v) by (intros name (v' & i' & X & <-); congruence).
  specialize (B _ V). fold (size (v_name v)). destruct (size (v_name v) >? T)%Z eqn:G.
  - apply Z.gtb_lt in G. assert (I : in_intb (T + 10) = true).
    { unfold in_intb. apply andb_true_iff. unfold INT_MAX, INT_MIN in *. split; apply Z.leb_le; lia. }
    rewrite I. cbn [negb]. destruct (size (v_name v) >? T + 10)%Z eqn:G'.
    + apply Z.gtb_lt in G'. assert (L : (3 <= size (v_name v))%Z) by lia.
      pose proof (shortened_iff (v_name v) T L G') as S. destruct (shortened (v_name v) T) as [s| |] eqn:SH.
      * cbn [obind]. eexists. split; [reflexivity|]. left. eexists. split; [reflexivity|]. exists (v_name v), s.
        split; auto. split; [lia|]. split; [now apply S|reflexivity].
      * exfalso. clear S. unfold shortened, substr_at in SH. unfold size in L.
        replace ((0 <? 0)%Z || (Z.of_nat (length (v_name v)) <? 0)%Z) with false in SH
          by (symmetry; apply orb_false_iff; split; [reflexivity|apply Z.ltb_ge; lia]).
        replace ((Z.of_nat (length (v_name v)) - 3 <? 0)%Z || (Z.of_nat (length (v_name v)) <? Z.of_nat (length (v_name v)) - 3)%Z) with false in SH
          by (symmetry; apply orb_false_iff; split; apply Z.ltb_ge; lia). discriminate.
      * exfalso. clear S. unfold shortened, substr_at in SH. repeat (destruct (_ || _)%bool in SH; try discriminate).
    + apply Z.gtb_ltb in G' || (rewrite Z.gtb_ltb in G'; apply Z.ltb_ge in G'). cbn [obind].
      eexists. split; [reflexivity|]. left. eexists. split; [reflexivity|]. exists (v_name v), (v_name v). split; auto.
      split; [lia|]. split; [apply di_whole; lia|reflexivity].
  - rewrite Z.gtb_ltb in G. apply Z.ltb_ge in G. eexists. split; [reflexivity|]. right. split; auto.
    intros m (name & s & N & L & _). apply U in N. subst. lia.
Qed.

(** ** Words *)
Fixpoint split (rest cur : str) : list str :=
  match rest with
  | [] => match cur with [] => [] | _ => [cur] end
  | c :: rest' => if isSeparator c then match cur with [] => [] | _ => [cur] end ++ split rest' [] else split rest' (cur ++ [c])
  end.
Lemma split_loop input : forall rest done start, input = done ++ rest -> start <= length done ->
  splitClasses_loop input rest (length done) start = split rest (skipn start done).
Proof.
  assert (P : forall done rest start, input = done ++ rest -> start <= length done ->
    (if start =? length done then [] else [substr input start (length done - start)])
    = match skipn start done with [] => [] | _ => [skipn start done] end).
  { intros done rest start E L. unfold substr. rewrite E, skipn_app. replace (start - length done) with 0 by lia. cbn [skipn].
    assert (X : length (skipn start done) = length done - start) by apply skipn_length.
    destruct (start =? length done) eqn:Q.
    - apply Nat.eqb_eq in Q. destruct (skipn start done); auto. cbn in X. lia.
    - apply Nat.eqb_neq in Q. rewrite firstn_app, firstn_all2 by lia. rewrite X, Nat.sub_diag. cbn. rewrite app_nil_r.
      destruct (skipn start done); auto. cbn in X. lia. }
  induction rest as [|c rest IH]; intros done start E L; cbn [splitClasses_loop split].
  - eapply P; eauto.
  - assert (E' : input = (done ++ [c]) ++ rest) by (rewrite <- app_assoc; exact E).
    assert (LL : length (done ++ [c]) = S (length done)) by (rewrite app_length; cbn; lia).
    destruct (isSeparator c).
    + rewrite (P done (c :: rest) start E L). f_equal. rewrite <- LL. rewrite IH; auto. f_equal. apply skipn_all.
    + rewrite <- LL. rewrite IH; auto; [|lia]. f_equal. rewrite skipn_app. replace (start - length done) with 0 by lia. reflexivity.
Qed.
Lemma separator_iff c : isSeparator c = true <-> separator c.
Proof.
  unfold isSeparator, separator, ascii_eqb. rewrite !orb_true_iff, !Ascii.eqb_eq. cbn. intuition congruence.
Qed.
Lemma word_first cur c rest w : (forall x, In x cur -> ~ separator x) -> separator c ->
  (word (cur ++ c :: rest) w <-> (w = cur /\ cur <> []) \/ word rest w).
Proof.
  intros N S. split.
  - intros (W & F & before & after & E & B & A). destruct B as [->|(b & c0 & -> & S0)].
    + cbn in E. apply app_eq_app in E as (l & [[-> E]|[-> E]]).
      * destruct l as [|x l]; [left; rewrite app_nil_r in *; auto|]. exfalso. destruct A as [->|(y & a & -> & Y)]; [discriminate|].
        cbn in E. injection E as -> E. eapply N; [apply in_or_app; right; left; reflexivity|exact Y].
      * destruct l as [|x l]; [left; rewrite app_nil_r in *; auto|]. exfalso. cbn in E. injection E as -> E.
        eapply F; [apply in_or_app; right; left; reflexivity|exact S].
    + right. split; auto. split; auto. rewrite <- app_assoc in E. cbn in E. apply app_eq_app in E as (l & [[-> E]|[-> E]]).
      * destruct l as [|x l]; cbn in E; injection E as E1 E2.
        -- exists [], after. auto.
        -- exfalso. subst x. eapply N; [apply in_or_app; right; left; reflexivity|exact S0].
      * destruct l as [|x l]; cbn in E; injection E as E1 E2.
        -- exists [], after. auto.
        -- exists (l ++ [c0]), after. rewrite <- app_assoc. split; [exact E2|]. split; auto. right. eauto.
  - intros [[-> W]|(W & F & before & after & -> & B & A)].
    + split; auto. split; auto. exists [], (c :: rest). split; auto. split; auto. right. eauto.
    + split; auto. split; auto. destruct B as [->|(b & c0 & -> & S0)].
      * exists (cur ++ [c]), after. rewrite <- app_assoc. split; auto. split; auto. right. eauto.
      * exists (cur ++ c :: b ++ [c0]), after. rewrite <- !app_assoc. cbn. rewrite <- !app_assoc. split; auto. split; auto.
        right. exists (cur ++ c :: b), c0. rewrite <- app_assoc. auto.
Qed.
Lemma word_none cur w : (forall x, In x cur -> ~ separator x) -> (word cur w <-> w = cur /\ cur <> []).
Proof.
  intros N. split.
  - intros (W & F & before & after & E & B & A). subst cur. destruct B as [->|(b & c0 & -> & S0)].
    + destruct A as [->|(y & a & -> & Y)]; [rewrite app_nil_r; cbn; rewrite ?app_nil_r; auto|].
      exfalso. eapply N; [|exact Y]. cbn. apply in_or_app. right. left. reflexivity.
    + exfalso. eapply N; [|exact S0]. apply in_or_app. left. apply in_or_app. right. left. reflexivity.
  - intros [-> W]. split; auto. split; auto. exists [], []. rewrite app_nil_r. auto.
Qed.
Lemma split_words w : forall rest cur, (forall x, In x cur -> ~ separator x) -> (In w (split rest cur) <-> word (cur ++ rest) w).
Proof.
  assert (P : forall cur, In w match cur with [] => [] | _ => [cur] end <-> w = cur /\ cur <> []).
  { intros [|c cur]; cbn; [intuition|]. split; [intros [<-|[]]; split; auto; discriminate|intros [-> _]; auto]. }
  induction rest as [|c rest IH]; intros cur N; cbn [split].
  - rewrite app_nil_r, P. symmetry. now apply word_none.
  - destruct (isSeparator c) eqn:S.
    + apply separator_iff in S. rewrite in_app_iff, P, IH by (intros x []). cbn [app]. symmetry. now apply word_first.
    + rewrite IH; [now rewrite <- app_assoc|]. intros x Hx. apply in_app_or in Hx as [Hx|[<-|[]]]; auto.
      rewrite <- separator_iff, S. discriminate.
Qed.
Lemma splitClasses_words input w : In w (splitClasses input) <-> word input w.
Proof.
  unfold splitClasses. change 0 with (@length ascii []) at 1. rewrite (split_loop input input [] 0) by (auto; lia). apply (split_words w input []). intros x [].
Qed.

(** ** Names of types *)
Lemma find_char_some c s p : find_char c s = Some p -> exists r, s = firstn p s ++ c :: r /\ ~ In c (firstn p s).
Proof.
  revert p. induction s as [|x s IH]; intros p; cbn; [discriminate|]. destruct (ascii_eqb x c) eqn:E.
  - intros [= <-]. apply Ascii.eqb_eq in E. subst. exists s. cbn. auto.
  - destruct (find_char c s) as [k|] eqn:F; [|discriminate]. intros [= <-]. destruct (IH k eq_refl) as (r & E1 & N).
    exists r. cbn. split; [now f_equal|]. intros [->|H]; auto. unfold ascii_eqb in E. rewrite Ascii.eqb_refl in E. discriminate.
Qed.
Lemma find_char_none c s : find_char c s = None -> ~ In c s.
Proof.
  induction s as [|x s IH]; cbn; auto. destruct (ascii_eqb x c) eqn:E; [discriminate|].
  destruct (find_char c s); [discriminate|]. intros _ [->|H]; [|now apply IH]. unfold ascii_eqb in E. rewrite Ascii.eqb_refl in E. discriminate.
Qed.
Lemma rfind_char_some c s p : rfind_char c s = Some p -> exists q, s = q ++ c :: skipn (S p) s /\ ~ In c (skipn (S p) s).
Proof.
  revert p. induction s as [|x s IH]; intros p; cbn; [discriminate|]. destruct (rfind_char c s) as [k|] eqn:F.
  - intros [= <-]. destruct (IH k eq_refl) as (q & E & N). exists (x :: q). cbn [app]. split; [|exact N]. f_equal. exact E.
  - destruct (ascii_eqb x c) eqn:E; [|discriminate]. intros [= <-]. apply Ascii.eqb_eq in E. subst. exists []. split; auto.
    cbn [skipn]. clear -F. induction s as [|y s IH]; auto. cbn in F. destruct (rfind_char c s); [discriminate|].
    destruct (ascii_eqb y c) eqn:E; [discriminate|]. intros [->|H]; [|now apply IH]. unfold ascii_eqb in E. rewrite Ascii.eqb_refl in E. discriminate.
Qed.
Lemma rfind_char_none c s : rfind_char c s = None -> ~ In c s.
Proof.
  induction s as [|x s IH]; cbn; auto. destruct (rfind_char c s) as [k|] eqn:F; [discriminate|].
  destruct (ascii_eqb x c) eqn:E; [discriminate|]. intros _ [->|H]; [|now apply IH]. unfold ascii_eqb in E. rewrite Ascii.eqb_refl in E. discriminate.
Qed.
Lemma base_name_model ty : base_name ty (variableTypeName ty).
Proof.
  unfold variableTypeName.
  assert (H : exists t rest, match find_char "<"%char ty with Some p => firstn p ty | None => ty end = t /\ ty = t ++ rest /\ ~ In "<"%char t
    /\ (rest = [] \/ exists r, rest = "<"%char :: r)).
  { destruct (find_char "<"%char ty) as [p|] eqn:F.
    - apply find_char_some in F as (r & E & N). eexists _, ("<"%char :: r). split; [reflexivity|]. split; eauto.
    - apply find_char_none in F. exists ty, []. rewrite app_nil_r. auto. }
  destruct H as (t & rest & -> & -> & N & R). destruct (rfind_char " "%char t) as [p|] eqn:F.
  - apply rfind_char_some in F as (q & E & M). exists (q ++ [" "%char]), rest. rewrite E in N |- * at 1.
    rewrite <- !app_assoc. cbn [app]. split; [reflexivity|]. split; [exact N|]. split; auto. split; auto. right. eauto.
  - apply rfind_char_none in F. exists [], rest. cbn. auto 8.
Qed.
Lemma split_unique (c : ascii) (a b x y : str) : ~ In c a -> ~ In c b ->
  (x = [] \/ exists r, x = c :: r) -> (y = [] \/ exists r, y = c :: r) -> a ++ x = b ++ y -> a = b /\ x = y.
Proof.
  intros A B X Y E. apply app_eq_app in E as (l & [[-> E]|[-> E]]).
  - destruct l as [|z l]; [rewrite app_nil_r; auto|]. exfalso. destruct Y as [->|(r & ->)]; [discriminate|]. cbn in E. injection E as -> _.
    apply A. apply in_or_app. right. left. reflexivity.
  - destruct l as [|z l]; [rewrite app_nil_r; auto|]. exfalso. destruct X as [->|(r & ->)]; [discriminate|]. cbn in E. injection E as -> _.
    apply B. apply in_or_app. right. left. reflexivity.
Qed.
Lemma base_name_det ty b b' : base_name ty b -> base_name ty b' -> b = b'.
Proof.
  intros (q & r & E & N & R & S & Q) (q' & r' & E' & N' & R' & S' & Q').
  rewrite E, !app_assoc in E'. destruct (split_unique "<"%char (q ++ b) (q' ++ b') r r' N N' R R' E') as [K _].
  assert (X : rev b = rev b' /\ rev q = rev q').
  { apply (split_unique " "%char).
    - rewrite <- in_rev. exact S.
    - rewrite <- in_rev. exact S'.
    - destruct Q as [->|(p & ->)]; [left; reflexivity|right; rewrite rev_app_distr; cbn; eauto].
    - destruct Q' as [->|(p & ->)]; [left; reflexivity|right; rewrite rev_app_distr; cbn; eauto].
    - rewrite <- !rev_app_distr. now f_equal. }
  rewrite <- (rev_involutive b), <- (rev_involutive b'). now f_equal.
Qed.
Lemma raii_iff skipped v : isRAIIClass skipped v = true <-> exists b, base_name (v_canonicalType v) b /\ In b skipped.
Proof.
  unfold isRAIIClass. rewrite existsb_exists. split.
  - intros (x & H & E). apply str_eqb_eq in E. subst x. eauto using base_name_model.
  - intros (b & H & I). exists b. split; auto. apply str_eqb_eq. eapply base_name_det; eauto using base_name_model.
Qed.

(** ** Unused variables *)
Lemma unused_node skipped n :
  (exists v, unused_local n v /\ (~ exists b, base_name (v_canonicalType v) b /\ In b skipped)
     /\ UnusedLocalVariable_visit skipped n = [Report n ($"The local variable '" ++ v_name v ++ $"' is unused.")])
  \/ ((~ exists v, unused_local n v /\ ~ exists b, base_name (v_canonicalType v) b /\ In b skipped)
     /\ UnusedLocalVariable_visit skipped n = []).
Proof.
  unfold UnusedLocalVariable_visit.
  destruct (n_shape n) eqn:E; try (right; split; [intros (v & ((i & X) & _) & _); congruence|reflexivity]).
  rename info into v. destruct (isUnusedLocalVariable v && negb (isRAIIClass skipped v)) eqn:B.
  - left. apply andb_true_iff in B as [U R]. apply negb_true_iff in R. exists v. split; [|split; auto].
    + unfold isUnusedLocalVariable in U. rewrite !andb_true_iff, !negb_true_iff in U. destruct U as [[[[[A B] C] D] F] G].
      unfold unused_local. repeat split; eauto. intros K. rewrite K in D. discriminate.
    + rewrite <- raii_iff, R. discriminate.
  - right. split; auto. intros (v' & ((i & X) & A & F & C & D & G & H) & R). rewrite E in X. injection X as <- <-.
    assert (K : isUnusedLocalVariable v && negb (isRAIIClass skipped v) = true); [|congruence].
    unfold isUnusedLocalVariable. rewrite A, F, C, G, H. cbn. rewrite !andb_true_r. apply andb_true_iff. split.
    + apply negb_true_iff. destruct (v_name v); [congruence|reflexivity].
    + apply negb_true_iff. apply not_true_is_false. rewrite raii_iff. exact R.
Qed.
Lemma obliged_iff cx : obliged cx <-> isExistingByContract cx || isObjCMethodWithIBActionAttribute cx = true.
Proof.
  split.
  - inversion 1; cbn; rewrite ?orb_true_r; reflexivity.
  - destruct cx as [[] [] []|[] [] [] []| | |]; cbn; try discriminate; intros _; constructor.
Qed.
Lemma parameter_node n :
  (exists v, unused_parameter n v /\ UnusedMethodParameter_visit n = [Report n ($"The parameter '" ++ v_name v ++ $"' is unused.")])
  \/ ((~ exists v, unused_parameter n v) /\ UnusedMethodParameter_visit n = []).
Proof.
  unfold UnusedMethodParameter_visit.
  destruct (n_shape n) eqn:E; try (right; split; [intros (v & (i & X) & _); congruence|reflexivity]).
  rename info into v.
  assert (C : negb (existsb isExistingByContract (v_contexts v)) && negb (existsb isObjCMethodWithIBActionAttribute (v_contexts v)) = true
    <-> forall c, In c (v_contexts v) -> ~ obliged c).
  { rewrite andb_true_iff, !negb_true_iff. split.
    - intros [A B] c Hc O. apply obliged_iff, orb_true_iff in O as [O|O].
      + assert (existsb isExistingByContract (v_contexts v) = true) by (apply existsb_exists; eauto). congruence.
      + assert (existsb isObjCMethodWithIBActionAttribute (v_contexts v) = true) by (apply existsb_exists; eauto). congruence.
    - intros H. split; apply not_true_is_false; intros K; apply existsb_exists in K as (c & Hc & K);
        apply (H c Hc), obliged_iff; rewrite K, ?orb_true_r; reflexivity. }
  match goal with |- context [if ?b then _ else _] => destruct b eqn:B end.
  - left. exists v. split; auto. rewrite !andb_true_iff, !negb_true_iff in B. destruct B as [P [[[[[A U] N] T] K] L]].
    split; [eauto|]. repeat split; auto; [intros X; rewrite X in N; discriminate|]. apply C. now rewrite K, L.
  - right. split; auto. intros (v' & (i & X) & P & A & U & N & T & O). rewrite E in X. injection X as <- <-.
    apply C in O. apply andb_true_iff in O as [O1 O2]. rewrite P, A, U, T, O1, O2 in B. cbn in B. destruct (v_name v); [congruence|discriminate].
Qed.

(** ** Short names *)
Definition headOf (n : node) : option (list node) :=
  match n_shape n with
  | ForStmt s _ _ _ _ => Some match s with Some s => match n_shape s with DeclStmt ds => ds | _ => [] end | None => [] end
  | CXXForRangeStmt _ s _ _ => Some match n_shape s with DeclStmt [d] => [d] | _ => [] end
  | ObjCForCollectionStmt s _ _ => Some match n_shape s with DeclStmt ds => ds | _ => [] end
  | CXXCatchStmt d _ => Some (opt d)
  | _ => None
  end.
Lemma head_iff n ds : head_of n ds <-> headOf n = Some ds.
Proof.
  unfold headOf. split.
  - inversion 1; subst;
      repeat match goal with E : n_shape _ = _ |- _ => rewrite E; clear E end; auto.
    + destruct s as [s|]; auto. destruct (n_shape s) eqn:E; auto. exfalso. match goal with K : forall s' ds, _ |- _ => eapply K; eauto end.
    + destruct (n_shape s) as [] eqn:E; auto. destruct decls as [|d [|]]; auto. exfalso. match goal with K : forall d, _ |- _ => eapply K; eauto end.
    + destruct (n_shape s) eqn:E; auto. exfalso. match goal with K : forall ds, _ |- _ => eapply K; eauto end.
  - destruct (n_shape n) eqn:E; try discriminate; intros [= <-].
    + destruct init as [s|].
      * destruct (n_shape s) eqn:S; try (eapply ho_for_none; [exact E|]; intros s' ds [= <-]; congruence). eapply ho_for; eauto.
      * eapply ho_for_none; [exact E|]. discriminate.
    + destruct (n_shape loopVar) eqn:S; try (eapply ho_range_none; [exact E|]; intros d; congruence).
      destruct decls as [|d [|]]; try (eapply ho_range_none; [exact E|]; intros d'; congruence). eapply ho_range; eauto.
    + destruct (n_shape element) eqn:S; try (eapply ho_each_none; [exact E|]; intros ds; congruence). eapply ho_each; eauto.
    + destruct exception; [eapply ho_catch|eapply ho_catch_all]; eauto.
Qed.
Lemma variable_iff n : a_variable n <-> isVarDecl n = true.
Proof.
  unfold a_variable, variable_named, isVarDecl. split.
  - intros (name & v & i & -> & _). reflexivity.
  - destruct (n_shape n); try discriminate. eauto.
Qed.
Lemma sublist_filter {A} (P : A -> Prop) f : (forall x, P x <-> f x = true) -> forall l s, sublist_where P l s <-> s = filter f l.
Proof.
  intros H. induction l as [|x l IH]; intros s; cbn.
  - split; [inversion 1; auto|intros ->; constructor].
  - destruct (f x) eqn:E.
    + assert (P x) by now apply H. split.
      * inversion 1; subst; [|tauto]. f_equal. now apply IH.
      * intros ->. constructor; auto. now apply IH.
    + assert (N : ~ P x) by (rewrite H; congruence). split.
      * inversion 1; subst; [tauto|]. now apply IH.
      * intros ->. constructor; auto. now apply IH.
Qed.
Definition isShort (T : Z) (n : node) : bool :=
  match n_shape n with VarDecl v _ => negb ((size (v_name v) <=? 0)%Z || (size (v_name v) >=? T)%Z) | _ => false end.
Lemma short_iff T n : (exists name, short_name T n name) <-> isShort T n = true.
Proof.
  unfold short_name, variable_named, isShort. split.
  - intros (name & (v & i & -> & <-) & L). rewrite negb_true_iff, orb_false_iff. rewrite Z.leb_gt, Z.geb_leb, Z.leb_gt. lia.
  - destruct (n_shape n) as [] eqn:E; try discriminate. rewrite negb_true_iff, orb_false_iff, Z.leb_gt, Z.geb_leb, Z.leb_gt. intros H.
    exists (v_name info). split; [eauto|lia].
Qed.
Definition countShort (T : Z) (l : list node) : nat := length (filter (isShort T) l).
Lemma picked_iff T l k : picked (fun m => exists name, short_name T m name) l k <-> k = countShort T l.
Proof.
  unfold countShort. revert k. induction l as [|x l IH]; intros k; cbn.
  - split; [inversion 1; auto|intros ->; constructor].
  - destruct (isShort T x) eqn:E.
    + assert (exists name, short_name T x name) by now apply short_iff. cbn. split.
      * inversion 1; subst; [|tauto]. f_equal. now apply IH.
      * intros ->. apply pk_yes; auto. now apply IH.
    + assert (N : ~ exists name, short_name T x name) by (rewrite short_iff; congruence). split.
      * inversion 1; subst; [tauto|]. now apply IH.
      * intros ->. apply pk_no; auto. now apply IH.
Qed.
Lemma countShort_app T a b : countShort T (a ++ b) = countShort T a + countShort T b.
Proof. unfold countShort. now rewrite filter_app, app_length. Qed.
(** The stack after the nodes [l]. *)
Definition heads (ds : list node) : list nat := map n_id (filter isVarDecl ds).
Definition stack_after (T : Z) (init : list nat) (l : list node) (st : list nat) : Prop :=
  (exists pre h mid ds, l = pre ++ h :: mid /\ headOf h = Some ds /\ (forall m, In m mid -> headOf m = None)
     /\ st = skipn (countShort T mid) (heads ds))
  \/ ((forall m, In m l -> headOf m = None) /\ st = skipn (countShort T l) init).
Definition short_report (T : Z) (n : node) : report :=
  Report n match n_shape n with VarDecl v _ => length_message (v_name v) (v_name v) $"shorter" T | _ => [] end.
Lemma short_visit T n st : ShortVariableName_visit T n st =
  match headOf n with
  | Some ds => (heads ds, [])
  | None => if isShort T n then (tl st, if match st with t :: _ => n_id n =? t | [] => false end then [] else [short_report T n]) else (st, [])
  end.
Proof.
  unfold ShortVariableName_visit, headOf, isShort, short_report. destruct (n_shape n) eqn:E; try reflexivity.
  - unfold handleDeclStmt, heads. destruct init as [s|]; [|reflexivity]. destruct (n_shape s); reflexivity.
  - unfold handleVarDecl, getLoopVariable, heads. destruct (n_shape loopVar); try reflexivity. destruct decls as [|d [|]]; try reflexivity.
    cbn. destruct (isVarDecl d); reflexivity.
  - unfold handleDeclStmt, heads. destruct (n_shape element); reflexivity.
  - unfold handleVarDecl, heads. destruct exception as [d|]; [|reflexivity]. cbn. destruct (isVarDecl d); reflexivity.
  - fold (size (v_name info)). destruct (_ || _); [reflexivity|]. cbn [negb]. destruct st; reflexivity.
Qed.
Lemma tl_skipn {A} k (l : list A) : tl (skipn k l) = skipn (S k) l.
Proof. revert l. induction k as [|k IH]; intros [|x l]; try reflexivity. apply IH. Qed.
Lemma stack_step T init l n st : stack_after T init l st -> stack_after T init (l ++ [n]) (fst (ShortVariableName_visit T n st)).
Proof.
  intros H. rewrite short_visit. destruct (headOf n) as [ds|] eqn:E.
  - left. exists l, n, [], ds. cbn. repeat split; auto. intros m [].
  - assert (SK : forall m, skipn (countShort T (m ++ [n])) = if isShort T n then skipn (S (countShort T m)) else @skipn nat (countShort T m)).
    { intros m. rewrite countShort_app. unfold countShort at 2. cbn [filter]. destruct (isShort T n); cbn [length]; [now rewrite Nat.add_1_r|now rewrite Nat.add_0_r]. }
    destruct H as [(pre & h & mid & ds & -> & Eh & N & ->)|[N ->]].
    + left. exists pre, h, (mid ++ [n]), ds. rewrite <- app_assoc. split; auto. split; auto. split.
      * intros m Hm. apply in_app_or in Hm as [Hm|[<-|[]]]; auto.
      * rewrite SK. destruct (isShort T n); cbn [fst]; [now rewrite tl_skipn|reflexivity].
    + right. split.
      * intros m Hm. apply in_app_or in Hm as [Hm|[<-|[]]]; auto.
      * rewrite SK. destruct (isShort T n); cbn [fst]; [now rewrite tl_skipn|reflexivity].
Qed.
Lemma last_unique {A} (P : A -> Prop) pre h mid pre' h' mid' : pre ++ h :: mid = pre' ++ h' :: mid' -> P h -> P h' ->
  (forall m, In m mid -> ~ P m) -> (forall m, In m mid' -> ~ P m) -> h = h' /\ mid = mid'.
Proof.
  intros E H H' N N'. apply app_eq_app in E as (l & [[-> E]|[-> E]]).
  - destruct l as [|x l]; cbn in E; injection E as E1 E2; auto. exfalso. subst. eapply N'; [|exact H]. apply in_or_app. right. left. reflexivity.
  - destruct l as [|x l]; cbn in E; injection E as E1 E2; auto. exfalso. subst. eapply N; [|exact H']. apply in_or_app. right. left. reflexivity.
Qed.
Lemma top_nth k (l : list nat) i : match skipn k l with t :: _ => i =? t | [] => false end = true <-> nth_error l k = Some i.
Proof.
  revert l. induction k as [|k IH]; intros [|x l]; cbn; try apply IH; try (split; discriminate).
  rewrite Nat.eqb_eq. split; congruence.
Qed.
Lemma exempt_iff T l n st init (U : list node) : stack_after T init l st ->
  (forall a b, In a U -> In b U -> n_id a = n_id b -> a = b) -> (forall i, In i init -> forall m, In m U -> n_id m <> i) ->
  In n U -> (forall h ds d, In h l -> headOf h = Some ds -> In d ds -> In d U) ->
  (exempt T l n <-> match st with t :: _ => n_id n =? t | [] => false end = true).
Proof.
  intros SA D F Hn HU. split.
  - intros (pre & h & mid & ds & vs & k & -> & Hh & Hv & N & Pk & K). apply head_iff in Hh. apply picked_iff in Pk. subst k.
    apply (sublist_filter a_variable isVarDecl variable_iff) in Hv. subst vs.
    destruct SA as [(pre' & h' & mid' & ds' & E & Eh & N' & ->)|[X _]].
    + destruct (last_unique (fun m => headOf m <> None) _ _ _ _ _ _ E) as [<- <-]; try congruence.
      * intros m Hm X. destruct (headOf m) as [y|] eqn:Y; [|auto]. eapply N; [exact Hm|]. apply head_iff. exact Y.
      * intros m Hm X. apply X. auto.
      * apply top_nth. replace ds' with ds by congruence. unfold heads. rewrite nth_error_map, K. reflexivity.
    + exfalso. rewrite (X h) in Hh; [discriminate|]. apply in_or_app. right. left. reflexivity.
  - destruct SA as [(pre & h & mid & ds & -> & Eh & N & ->)|[X ->]]; rewrite top_nth; intros K.
    + unfold heads in K. rewrite nth_error_map in K. destruct (nth_error (filter isVarDecl ds) (countShort T mid)) as [d|] eqn:Q; [|discriminate].
      cbn in K. injection K as K. assert (d = n).
      { apply D; auto. eapply HU; eauto; [apply in_or_app; right; left; reflexivity|]. apply nth_error_In in Q. apply filter_In in Q. tauto. }
      subst d. exists pre, h, mid, ds, (filter isVarDecl ds), (countShort T mid). split; auto. split; [now apply head_iff|].
      split; [now apply (sublist_filter a_variable isVarDecl variable_iff)|]. split; [|split; [now apply picked_iff|auto]].
      intros m ds' Hm Y. apply head_iff in Y. rewrite (N m Hm) in Y. discriminate.
    + exfalso. apply nth_error_In in K. eapply F; eauto.
Qed.
Lemma head_kids h ds d : headOf h = Some ds -> In d ds -> below h d.
Proof.
  unfold headOf. destruct (n_shape h) eqn:E; try discriminate; intros [= <-] Hd.
  - destruct init as [s|]; [|destruct Hd]. destruct (n_shape s) eqn:S; try destruct Hd as []. 
    apply below_child with s; [unfold kids; rewrite E; cbn; auto|]. apply below_child with d; [unfold kids; rewrite S; auto|]. apply below_self.
  - destruct (n_shape loopVar) eqn:S; try destruct Hd as []. destruct decls as [|x [|]]; try now destruct Hd. destruct Hd as [->|[]].
    apply below_child with loopVar; [unfold kids; rewrite E; cbn; apply in_or_app; right; left; reflexivity|].
    apply below_child with d; [unfold kids; rewrite S; simpl; auto|]. apply below_self.
  - destruct (n_shape element) eqn:S; try destruct Hd as [].
    apply below_child with element; [unfold kids; rewrite E; cbn; auto|]. apply below_child with d; [unfold kids; rewrite S; auto|]. apply below_self.
  - destruct exception as [x|]; [|destruct Hd]. destruct Hd as [->|[]]. apply below_child with d; [unfold kids; rewrite E; cbn; auto|apply below_self].
Qed.
Lemma short_run T init roots : distinct_nodes roots -> (forall i, In i init -> forall m, In m (all_nodes roots) -> n_id m <> i) ->
  forall l2 l1 st rs, all_nodes roots = l1 ++ l2 -> stack_after T init l1 st ->
  exists sel, sublist_where (fun p => (exists name, short_name T (snd p) name) /\ ~ exempt T (fst p) (snd p)) (spots l1 l2) sel
    /\ snd (fold_left (fun st m => snd (stateful_visit (ShortVariableName_visit T) m st)) l2 (st, rs))
       = rs ++ map (fun p => short_report T (snd p)) sel.
Proof.
  intros D F. induction l2 as [|n l2 IH]; intros l1 st rs E SA; cbn [fold_left spots].
  - exists []. split; [constructor|]. cbn. now rewrite app_nil_r.
  - unfold stateful_visit at 2. pose proof (stack_step T init l1 n st SA) as SA'.
    destruct (ShortVariableName_visit T n st) as [st' r] eqn:V. cbn [fst] in SA'. cbn [snd].
    destruct (IH (l1 ++ [n]) st' (rs ++ r)) as (sel & S & R); [rewrite <- app_assoc; exact E|exact SA'|].
    assert (EX : exempt T l1 n <-> match st with t :: _ => n_id n =? t | [] => false end = true).
    { eapply exempt_iff with (U := all_nodes roots); eauto.
      - intros a b Ha Hb K. eapply distinct_inj; eauto.
      - rewrite E. apply in_or_app. right. left. reflexivity.
      - intros h ds d Hh Eh Hd. assert (X : In h (all_nodes roots)) by (rewrite E; apply in_or_app; auto).
        apply in_all in X as (root & Hr & B). apply in_all. exists root. split; auto. eapply below_trans; eauto using head_kids. }
    rewrite short_visit in V. assert (NS : headOf n <> None -> isShort T n = false).
    { unfold headOf, isShort. destruct (n_shape n); congruence. }
    destruct (headOf n) as [ds|] eqn:Hn.
    + injection V as <- <-. exists sel. split; [|rewrite R, app_nil_r; reflexivity]. apply sw_drop; auto.
      intros [K _]. apply short_iff in K. cbn in K. rewrite NS in K; congruence.
    + destruct (isShort T n) eqn:SH.
      * injection V as <- <-. destruct (match st with t :: _ => n_id n =? t | [] => false end) eqn:X.
        -- exists sel. split; [|rewrite R, app_nil_r; reflexivity]. apply sw_drop; auto. cbn. tauto.
        -- exists ((l1, n) :: sel). split; [|rewrite R; cbn; now rewrite <- app_assoc]. apply sw_take; auto. cbn. split; [now apply short_iff|].
           rewrite EX. discriminate.
      * injection V as <- <-. exists sel. split; [|rewrite R, app_nil_r; reflexivity]. apply sw_drop; auto.
        intros [K _]. apply short_iff in K. cbn in K. congruence.
Qed.
Lemma short_report_spec T n : (exists name, short_name T n name) ->
  exists name, short_name T n name /\ short_report T n = Report n (length_message name name $"shorter" T).
Proof.
  intros (name & (v & i & E & <-) & L). exists (v_name v). split; [split; auto; do 2 eexists; eauto|]. unfold short_report. now rewrite E.
Qed.

(** ** For the properties *)
Lemma reports_messages_intro (R : node -> str -> Prop) f root :
  (forall n, (exists m, R n m /\ f n = [Report n m]) \/ ((forall m, ~ R n m) /\ f n = [])) ->
  reports_messages R root (reports f root).
Proof.
  intros H. unfold reports_messages. rewrite reports_nodes. induction (nodes root) as [|a l IH].
  - exists []. split; constructor.
  - destruct IH as (sel & S & F). cbn [flat_map]. destruct (H a) as [(m & Hm & E)|[N E]]; rewrite E.
    + exists (a :: sel). split; [constructor; eauto|]. cbn. constructor; eauto.
    + exists sel. split; auto. constructor; auto. intros (m & K). eapply N; eauto.
Qed.
Lemma outcome_messages (R : node -> str -> Prop) visit root :
  (forall n, below root n -> exists r, visit n = Val r /\ ((exists m, r = [Report n m] /\ R n m) \/ ((forall m, ~ R n m) /\ r = []))) ->
  exists rs, reports_outcome visit root = Val rs /\ reports_messages R root rs.
Proof.
  intros H. assert (H' : forall n, In n (nodes root) -> exists r, visit n = Val r /\ ((exists m, r = [Report n m] /\ R n m) \/ ((forall m, ~ R n m) /\ r = []))).
  { intros n Hn. apply H. now apply in_nodes. }
  assert (G : forall l, (forall n, In n l -> In n (nodes root)) -> exists rss sel, Forall2 (fun n r => visit n = Val r) l rss
    /\ sublist_where (fun n => exists m, R n m) l sel /\ Forall2 (fun n r => exists m, R n m /\ r = Report n m) sel (concat rss)).
  { induction l as [|n l IH]; intros I.
    - exists [], []. repeat split; constructor.
    - destruct IH as (rss & sel & F & S & G); [intros; apply I; simpl; auto|].
      destruct (H' n) as (r & V & K); [apply I; simpl; auto|]. destruct K as [(m & -> & K)|[N ->]].
      + exists ([Report n m] :: rss), (n :: sel). split; [constructor; auto|]. split; [constructor; eauto|]. cbn. constructor; eauto.
      + exists ([] :: rss), sel. split; [constructor; auto|]. split; [|exact G]. constructor; auto. intros (m & K). eapply N; eauto. }
  destruct (G (nodes root) (fun _ x => x)) as (rss & sel & F & S & K). exists (concat rss). split; [apply outcome_nodes; eauto|]. exists sel. auto.
Qed.
Lemma spots_in {A} (l : list A) : forall before b x, In (b, x) (spots before l) -> exists mid after, b = before ++ mid /\ l = mid ++ x :: after.
Proof.
  induction l as [|y l IH]; intros before b x; cbn; [intros []|]. intros [[= <- <-]|H].
  - exists [], l. now rewrite app_nil_r.
  - apply IH in H as (mid & after & -> & ->). exists (y :: mid), after. now rewrite <- app_assoc.
Qed.
Lemma distinct_split (x : node) a b c d : NoDup (map n_id (a ++ x :: b)) -> a ++ x :: b = c ++ x :: d -> a = c.
Proof.
  intros N E. rewrite map_app in N. cbn in N. apply NoDup_remove_2 in N. rewrite <- map_app in N.
  apply app_eq_app in E as (l & [[-> E]|[-> E]]).
  - destruct l as [|z l]; [now rewrite app_nil_r|]. exfalso. cbn in E. injection E as <- E. apply N, in_map, in_or_app. left. apply in_or_app. right. left. reflexivity.
  - destruct l as [|z l]; [now rewrite app_nil_r|]. exfalso. cbn in E. injection E as <- ->. apply N, in_map, in_or_app. right. apply in_or_app. right. left. reflexivity.
Qed.
Lemma plain_nodes h ds : plain_head h ds -> head_of h ds /\ exists lead rest, nodes h = h :: lead ++ flat_map nodes ds ++ rest
  /\ (lead = [] \/ exists s, lead = [s] /\ n_shape s = DeclStmt ds).
Proof.
  intros H. inversion H as [n s p c i b ds' E S|n s d r b E S|n s c b ds' E S|n d b E]; subst n; try subst ds'.
  - split; [eapply ho_for; eauto|]. rewrite nodes_eq. unfold kids. rewrite E. cbn [children opt app flat_map]. rewrite (nodes_eq s). unfold kids. rewrite S. cbn [children].
    exists [s]. eexists. split; [|right; eauto]. cbn. rewrite <- ?app_assoc. reflexivity.
  - split; [eapply ho_range; eauto|]. rewrite nodes_eq. unfold kids. rewrite E. cbn [children opt app flat_map]. rewrite (nodes_eq s). unfold kids. rewrite S. cbn [children].
    exists [s]. eexists. split; [|right; eauto]. cbn. rewrite <- ?app_assoc. reflexivity.
  - split; [eapply ho_each; eauto|]. rewrite nodes_eq. unfold kids. rewrite E. cbn [children opt app flat_map]. rewrite (nodes_eq s). unfold kids. rewrite S. cbn [children].
    exists [s]. eexists. split; [|right; eauto]. cbn. rewrite <- ?app_assoc. reflexivity.
  - split; [eapply ho_catch; eauto|]. rewrite nodes_eq. unfold kids. rewrite E. cbn [children opt app flat_map].
    exists []. eexists. split; [|left; auto]. cbn. rewrite <- ?app_assoc. reflexivity.
Qed.
Lemma plain_exempt T pre h ds d b a lead : head_of h ds -> (lead = [] \/ exists s, lead = [s] /\ n_shape s = DeclStmt ds) -> ds = b ++ d :: a ->
  (forall x, In x ds -> (exists name, short_name T x name) /\ quiet T x) -> exempt T (pre ++ h :: lead ++ flat_map nodes b) d.
Proof.
  intros Hh L E Q. exists pre, h, (lead ++ flat_map nodes b), ds, ds, (length b). split; auto. split; auto.
  assert (V : forall x, In x ds -> a_variable x). { intros x Hx. destruct (Q x Hx) as [(name & K & _) _]. exists name. exact K. }
  split; [clear - V; induction ds; constructor; [apply V; simpl; auto|apply IHds; intros; apply V; simpl; auto]|].
  assert (K : forall x, In x b -> (exists name, short_name T x name) /\ quiet T x) by (intros; apply Q; subst; apply in_or_app; auto).
  assert (VH : forall x ds', (exists name, short_name T x name) -> ~ head_of x ds').
  { intros x ds' (name & (v & i & S & _) & _) X. inversion X; subst; congruence. }
  split; [|split].
  - intros m ds' Hm X. apply in_app_or in Hm as [Hm|Hm].
    + destruct L as [->|(s & -> & S)]; [destruct Hm|]. destruct Hm as [<-|[]]. inversion X; subst; congruence.
    + apply in_flat_map in Hm as (x & Hx & Hm). destruct (K x Hx) as [S1 S2]. rewrite nodes_eq in Hm. destruct Hm as [<-|Hm]; [eapply VH; eauto|].
      apply in_flat_map in Hm as (c & Hc & Hm). apply in_nodes in Hm. destruct (S2 c m Hc Hm) as [N _]. eapply N; eauto.
  - rewrite picked_iff. rewrite countShort_app. replace (countShort T lead) with 0.
    2:{ destruct L as [->|(s & -> & S)]; [reflexivity|]. unfold countShort. cbn. unfold isShort. rewrite S. reflexivity. }
    rewrite Nat.add_0_l. clear - K. induction b as [|x b IH]; [reflexivity|]. cbn [flat_map length]. rewrite countShort_app. rewrite <- (IH (fun y Hy => K y (or_intror Hy))).
    destruct (K x (or_introl eq_refl)) as [S Q]. apply short_iff in S. rewrite nodes_eq. unfold countShort. cbn [filter]. rewrite S. cbn.
    replace (filter (isShort T) (flat_map nodes (kids x))) with (@nil node); [cbn; unfold countShort; lia|]. symmetry. 
    assert (Z : forall l, (forall y, In y l -> isShort T y = false) -> filter (isShort T) l = []).
    { clear. induction l as [|y l IH]; intros H; cbn; auto. rewrite H by (simpl; auto). apply IH. intros; apply H; simpl; auto. }
    apply Z. intros y Hy. apply in_flat_map in Hy as (c & Hc & Hy). apply in_nodes in Hy. destruct (Q c y Hc Hy) as [_ N].
    destruct (isShort T y) eqn:X; auto. apply short_iff in X as (name & X). exfalso. eapply N; eauto.
  - subst. rewrite nth_error_app2, Nat.sub_diag by lia. reflexivity.
Qed.

(** ** Reading the limit *)
Lemma long_val c T c' root : intForKey c $"LONG_VARIABLE_NAME" 20 = Val (T, c') ->
  LongVariableNameRule c root = reports_outcome (LongVariableName_visit T) root.
Proof.
  intros E. apply outcome_ext. intros n. rewrite E. cbn [obind fst]. unfold isVarDecl, LongVariableName_visit. destruct (n_shape n); reflexivity.
Qed.
Lemma long_silent c root rs : (forall T c', intForKey c $"LONG_VARIABLE_NAME" 20 <> Val (T, c')) -> LongVariableNameRule c root = Val rs -> rs = [].
Proof.
  intros N. apply outcome_silent. intros n r. destruct (isVarDecl n); [|congruence].
  destruct (intForKey c _ 20) as [[T c']|m|]; [destruct (N T c' eq_refl)|discriminate|discriminate].
Qed.
Definition short_pure (T : Z) (stack : list nat) (roots : list node) : list nat * list report :=
  fold_left (fun st m => snd (stateful_visit (ShortVariableName_visit T) m st)) (all_nodes roots) (stack, []).
Lemma short_nodes c roots : forall o,
  fold_left (fun acc root => snd (traverse (fun n a => (true, obind a (ShortVariableName_step c n))) root acc)) roots o
  = fold_left (fun a n => obind a (ShortVariableName_step c n)) (all_nodes roots) o.
Proof.
  unfold all_nodes. induction roots as [|r roots IH]; intros o; cbn [fold_left flat_map]; auto.
  rewrite fold_left_app, IH. f_equal. rewrite traverse_nodes, visit_all_true by auto. reflexivity.
Qed.
Lemma short_elsewhere T T' n st : isVarDecl n = false ->
  stateful_visit (ShortVariableName_visit T) n st = stateful_visit (ShortVariableName_visit T') n st.
Proof. unfold isVarDecl, stateful_visit, ShortVariableName_visit. destruct st, (n_shape n); congruence. Qed.
Lemma short_limit c T c' stack roots : intForKey c $"SHORT_VARIABLE_NAME" 3 = Val (T, c') ->
  ShortVariableName_run c stack roots = Val (short_pure T stack roots).
Proof.
  intros E. unfold ShortVariableName_run, short_pure. rewrite short_nodes. generalize (stack, @nil report).
  induction (all_nodes roots) as [|n l IH]; intros st; cbn [fold_left]; auto. rewrite <- IH. f_equal. cbn [obind].
  unfold ShortVariableName_step. rewrite E. cbn [obind fst]. destruct (isVarDecl n) eqn:V; cbn [obind]; auto. now rewrite (short_elsewhere 0 T).
Qed.
Lemma short_no_limit c stack roots (bad : outcome (list nat * list report)) :
  (forall n st, isVarDecl n = true -> ShortVariableName_step c n st = bad) -> (forall f, obind bad f = bad) ->
  ShortVariableName_run c stack roots = if existsb isVarDecl (all_nodes roots) then bad else Val (short_pure 0 stack roots).
Proof.
  intros B S. unfold ShortVariableName_run, short_pure. rewrite short_nodes. generalize (stack, @nil report).
  induction (all_nodes roots) as [|n l IH]; intros st; cbn [fold_left existsb]; auto. cbn [obind].
  destruct (isVarDecl n) eqn:V; cbn [orb].
  - rewrite B by auto. clear - S. induction l; cbn [fold_left]; auto. now rewrite S.
  - rewrite <- IH. f_equal. unfold ShortVariableName_step. rewrite V. reflexivity.
Qed.
(** All there is to know about a unit. *)
Lemma short_cases c stack roots : ShortVariableName_run c stack roots =
  match intForKey c $"SHORT_VARIABLE_NAME" 3 with
  | Val (T, _) => Val (short_pure T stack roots)
  | Exc m => if existsb isVarDecl (all_nodes roots) then Exc m else Val (short_pure 0 stack roots)
  | UB => if existsb isVarDecl (all_nodes roots) then UB else Val (short_pure 0 stack roots)
  end.
Proof.
  destruct (intForKey c _ 3) as [[T c']|m|] eqn:E; [eapply short_limit; eauto| |];
    (apply short_no_limit; [|reflexivity]; intros n st V; unfold ShortVariableName_step; rewrite V, E; reflexivity).
Qed.
