(** * The texts of violations *)
From Verif Require Import Base BaseFacts ModelResults ModelConfig ModelFilter ModelOptions ModelMain ModelDriver
  ModelSource ModelAST ModelRules ModelRulesBasic ModelRulesConvention ModelRulesNullCheck
  ModelRulesRedundant ModelRulesVars ModelRulesObjC ModelDocgen ModelRuleTable ModelProgram
  SpecFilter SpecAST SpecRulesRedundant SpecProgram SpecMessages ProofConfig ProofAST ProofRules ProofRulesConvention ProofRulesRedundant ProofRulesVars ProofReporters ProofProgram.
From Coq Require Import Lia.
Local Arguments lit : simpl never.

Definition harmlessb (c : ascii) : bool :=
  (32 <=? code c) && (code c <? 127) && negb (existsb (ascii_eqb c) [""""; "\"; "<"; ">"; "&"]%char).
Lemma harmlessb_ok c : harmlessb c = true -> harmless c.
Proof.
  unfold harmlessb. intros H. apply andb_prop in H as [H N]. apply andb_prop in H as [A B].
  apply Nat.leb_le in A. apply Nat.ltb_lt in B. split; [lia|]. intros I. apply negb_true_iff in N.
  assert (existsb (ascii_eqb c) [""""; "\"; "<"; ">"; "&"]%char = true); [|congruence].
  apply existsb_exists. exists c. split; auto. apply Ascii.eqb_refl.
Qed.
Lemma mo_lit names m : forallb harmlessb m = true -> made_of names m.
Proof. intros H. apply Forall_forall. intros c I. left. apply harmlessb_ok. rewrite forallb_forall in H. auto. Qed.
Lemma mo_nil names : made_of names [].
Proof. constructor. Qed.
Lemma mo_app names a b : made_of names a -> made_of names b -> made_of names (a ++ b).
Proof. intros. apply Forall_app. auto. Qed.
Lemma mo_num names z : made_of names (show_Z z).
Proof.
  eapply Forall_impl; [|apply show_chars]. intros c [D| ->]; left; apply harmlessb_ok; auto.
  clear -D. destruct c as [[] [] [] [] [] [] [] []]; vm_compute in D; try discriminate; reflexivity.
Qed.
Lemma mo_name names s : In s names -> made_of names s.
Proof. intros H. apply Forall_forall. intros c I. right. eauto. Qed.
Lemma mo_part names s t : In s names -> (forall c, In c t -> In c s) -> made_of names t.
Proof. intros H P. apply Forall_forall. intros c I. right. eauto. Qed.
Lemma mo_weaken names names' m : (forall s, In s names -> In s names') -> made_of names m -> made_of names' m.
Proof. intros H. apply Forall_impl. intros c [A|(s & A & B)]; [now left|right; eauto]. Qed.

Definition fine (names : list str) (rs : list report) : Prop := Forall (fun r => made_of names (rp_message r)) rs.
Lemma fine_weaken names names' rs : (forall s, In s names -> In s names') -> fine names rs -> fine names' rs.
Proof. intros H. apply Forall_impl. intros r. now apply mo_weaken. Qed.
Lemma fine_plain names l : fine names (map plainReport l).
Proof. apply Forall_forall. intros r H. apply in_map_iff in H as (n & <- & _). apply mo_nil. Qed.
Lemma fine_app names a b : fine names a -> fine names b -> fine names (a ++ b).
Proof. intros. apply Forall_app. auto. Qed.
Lemma fine_repeat names n k : fine names (repeat (plainReport n) k).
Proof. induction k; constructor; auto. apply mo_nil. Qed.
Lemma fine_flat {A} names (f : A -> list report) l : (forall a, In a l -> fine names (f a)) -> fine names (flat_map f l).
Proof. induction l as [|a l IH]; intros H; [constructor|]. cbn [flat_map]. apply fine_app; [apply H; now left|apply IH; intros; apply H; now right]. Qed.
Lemma fine_collect names f n : (forall m, In m (nodes n) -> fine names (f m)) -> fine names (collect f n).
Proof. intros H. rewrite collect_nodes. now apply fine_flat. Qed.

Ltac fine_step :=
  match goal with
  | |- fine _ [] => constructor
  | |- fine _ (_ ++ _) => apply fine_app
  | |- fine _ (map plainReport _) => apply fine_plain
  | |- fine _ (repeat (plainReport _) _) => apply fine_repeat
  | |- fine _ [plainReport _] => constructor; [apply mo_nil|constructor]
  | |- fine _ [Report _ []] => constructor; [apply mo_nil|constructor]
  | |- fine _ (flat_map _ _) => apply fine_flat; intros
  | |- fine _ (if ?b then _ else _) => destruct b
  | |- fine _ (match ?x with _ => _ end) => destruct x
  | |- fine _ (let '(_, _) := ?x in _) => destruct x
  end.
Ltac head_of t := match t with ?f _ => head_of f | _ => t end.
Ltac dull :=
  intros; cbv beta; repeat (first [progress fine_step | match goal with |- fine _ ?t => let h := head_of t in unfold h; cbv beta zeta end]).

(** What a behaviour must satisfy for its messages to be made of the names of the tree. *)
Definition polite (b : behaviour) : Prop :=
  match b with
  | BVisit visit => forall x n, fine (quotable n) (visit x n)
  | BChecked rule => forall c x d rs, rule c x d = Val rs -> fine (flat_map quotable (nodes d)) rs
  | BSetUp rule => forall c x ds rs, rule c x ds = Val rs -> fine (flat_map quotable (flat_map nodes ds)) rs
  | BWhole rule => forall ds, fine [] (rule ds)
  | BBases visit => forall n, Forall (fun p => made_of (quotable n) (snd p)) (visit n)
  | BStack | BLines => True
  end.

Ltac msg := constructor; [cbn [rp_message]; repeat apply mo_app; first [apply mo_num | apply mo_lit; vm_compute; reflexivity | idtac]|constructor].

Lemma dead_fine names l : forall b, fine names (deadCode_loop l b).
Proof. induction l as [|n l IH]; intros b; cbn [deadCode_loop]; repeat fine_step. apply IH. Qed.
Lemma misplaced_fine names l : fine names (misplacedDefault_loop l).
Proof. induction l as [|n l IH]; cbn [misplacedDefault_loop]; repeat fine_step; auto. Qed.

(** Comments of annotations *)
Lemma in_substr s a n c : In c (substr s a n) -> In c s.
Proof.
  unfold substr. intros H. assert (K : forall k (l : str), In c (firstn k l) -> In c l).
  { induction k as [|k IH]; intros [|x l]; cbn; try tauto. intros [|]; auto. }
  apply K in H. clear K. revert s H. induction a as [|a IH]; intros [|x s]; cbn; auto.
Qed.
Definition part (l : list str) (comment comment' : str) : Prop := comment' = comment \/ exists s, In s l /\ forall c, In c comment' -> In c s.
Lemma part_incl l l' a b : (forall s, In s l -> In s l') -> part l a b -> part l' a b.
Proof. intros H [->|(s & A & B)]; [now left|right; eauto]. Qed.
Lemma part_trans l a b c : part l a b -> part l b c -> part l a c.
Proof. intros H [->|K]; [auto|right; auto]. Qed.
Lemma annotation_part a name comment : part [a] comment (snd (attributeHasAnnotation a name comment)).
Proof.
  unfold attributeHasAnnotation. destruct (find_char _ name); [|now left]. destruct (_ || _); [now left|].
  destruct (find_char _ (skipn _ a)); [|now left]. destruct (match rev a with c :: _ => _ | [] => false end); [|now left].
  right. exists a. split; [now left|]. cbn [snd]. intros c. apply in_substr.
Qed.
Lemma annots_part l name : forall comment, part l comment (snd (annots_loop l name comment)).
Proof.
  induction l as [|a l IH]; intros comment; cbn [annots_loop]; [now left|].
  pose proof (annotation_part a name comment) as H. destruct (attributeHasAnnotation a name comment) as [[|] c]; cbn [snd] in *.
  - eapply part_incl; [|exact H]. intros s [<-|[]]. now left.
  - eapply part_trans; [eapply part_incl; [|exact H]; intros s [<-|[]]; now left|].
    eapply part_incl; [|apply IH]. intros s. now right.
Qed.
Lemma base_part o action rule comment : part (match o with Some l => l | None => [] end) comment (snd (baseAction o action rule comment)).
Proof. unfold baseAction, declHasOCLintAttribute, declHasAttribute. destruct o; [apply annots_part|now left]. Qed.
Lemma action_part : forall d action rule comment, part (annotation_texts d) comment (snd (declHasActionAttribute d action rule comment)).
Proof.
  fix IH 1.
  assert (IHc : forall cats action rule comment, part (annotation_texts_l cats) comment (snd (categoriesHave cats action rule comment))).
  { fix IHc 1. intros [|[d|] rest] action rule comment; cbn [categoriesHave annotation_texts_l].
    - now left.
    - specialize (IH d action rule comment). destruct (declHasActionAttribute d action rule comment) as [[|] c]; cbn [snd] in *.
      + eapply part_incl; [|exact IH]. intros s. rewrite in_app_iff. auto.
      + eapply part_trans; [eapply part_incl; [|exact IH]; intros s; rewrite in_app_iff; auto|].
        eapply part_incl; [|apply IHc]. intros s. rewrite in_app_iff. auto.
    - apply IHc. }
  intros [annots [[acc prop ctx]|]] action rule comment; cbn [declHasActionAttribute annotation_texts annotation_texts_m].
  2:{ apply (base_part (Some annots)). }
  pose proof (base_part (Some annots) action rule comment) as H1. destruct (baseAction (Some annots) action rule comment) as [[|] c1]; cbn [snd] in *.
  { eapply part_incl; [|exact H1]. intros s. rewrite !in_app_iff. auto. }
  eapply part_trans; [eapply part_incl; [|exact H1]; intros s; rewrite !in_app_iff; auto|]. clear H1.
  assert (H2 : part (match prop with Some l => l | None => [] end) c1 (snd (if acc then baseAction prop action rule c1 else (false, c1)))).
  { destruct acc; [apply base_part|now left]. }
  destruct (if acc then baseAction prop action rule c1 else (false, c1)) as [[|] c2]; cbn [snd] in *.
  { eapply part_incl; [|exact H2]. intros s. rewrite !in_app_iff. auto. }
  eapply part_trans; [eapply part_incl; [|exact H2]; intros s; rewrite !in_app_iff; auto|]. clear H2.
  destruct ctx as [|lookup|[cats|]]; cbn [snd annotation_texts_c]; try now left.
  - eapply part_incl; [|apply (base_part lookup)]. intros s. rewrite !in_app_iff. auto.
  - eapply part_incl; [|apply IHc]. intros s. rewrite !in_app_iff. auto.
Qed.
Lemma comment_made names d action rule : (forall s, In s (annotation_texts d) -> In s names) ->
  made_of names (snd (declHasActionAttribute d action rule [])).
Proof.
  intros H. destruct (action_part d action rule []) as [->|(s & A & B)]; [apply mo_nil|]. eapply mo_part; eauto.
Qed.
Lemma withComment_made names a b : made_of names a -> made_of names b -> made_of names (withComment a b).
Proof. intros A B. unfold withComment. destruct b; auto. apply mo_app; auto. apply mo_app; auto. apply mo_lit. reflexivity. Qed.

Lemma isequal_fine n : fine (quotable n) (IsEqualHash_visit n).
Proof. unfold IsEqualHash_visit. cbv zeta. repeat fine_step. msg. Qed.
Lemma super_fine n : fine (quotable n) (MustCallSuper_visit n).
Proof. unfold MustCallSuper_visit, quotable. destruct (n_shape n); cbv zeta; repeat fine_step. msg. apply mo_name. now left. Qed.
Lemma prohibited_fine n : fine (quotable n) (ProhibitedCall_visit n).
Proof.
  unfold ProhibitedCall_visit, quotable. destruct (n_shape n); try solve [repeat fine_step].
  - destruct directCallee as [[name d]|]; cbn [option_map snd declHasEnforceAttribute]; [|repeat fine_step].
    pose proof (comment_made (name :: annotation_texts d) d $"enforce" $"prohibited method" (fun s H => or_intror H)) as C.
    destruct (declHasActionAttribute d _ _ _) as [[|] comment]; [|repeat fine_step]. cbn [snd] in C.
    constructor; [|constructor]. cbn [rp_message]. apply withComment_made; auto. apply mo_app; [apply mo_lit; reflexivity|]. apply mo_name. now left.
  - destruct (ms_method info) as [d|] eqn:E; cbn [declHasEnforceAttribute]; [|repeat fine_step].
    match goal with |- fine ?names _ => 
      pose proof (comment_made names d $"enforce" $"prohibited method") as C end.
    destruct (declHasActionAttribute d _ _ _) as [[|] comment]; [|repeat fine_step]. cbn [snd] in C.
    constructor; [|constructor]. cbn [rp_message]. apply withComment_made; [apply mo_app; [apply mo_lit; reflexivity|apply mo_name; now left]|].
    apply C. intros s H. right. apply in_or_app. now right.
Qed.
Lemma subclass_fine n : fine (quotable n) (SubclassMustImplement_visit n).
Proof.
  unfold SubclassMustImplement_visit, quotable. destruct (n_shape n); try solve [repeat fine_step].
  destruct info as [kind name lines ivars ms classes sup]. destruct kind; try solve [repeat fine_step]. cbn [oc_superMethods].
  destruct sup as [[className methods]|]; [|constructor].
  apply fine_flat. intros [[selector inst] d] H. repeat fine_step. msg.
  - apply mo_name. now left.
  - apply mo_name. right. apply in_map_iff. exists (selector, inst, d). auto.
Qed.
Lemma virtual_fine n : fine (quotable n) (DestructorOfVirtualClass_visit n).
Proof.
  unfold DestructorOfVirtualClass_visit, quotable. destruct (n_shape n); try solve [repeat fine_step].
  destruct (r_class info) as [i name [|] [|] d bases]; try solve [repeat fine_step].
  assert (I : In name (class_names (CxxRecord i name true true d bases))) by now left.
  repeat fine_step; msg; now apply mo_name.
Qed.
Lemma unusedparam_fine n : fine (quotable n) (UnusedMethodParameter_visit n).
Proof. unfold UnusedMethodParameter_visit, quotable. destruct (n_shape n); try solve [repeat fine_step]. destruct (v_isParm info && _); [|constructor]. msg. apply mo_name. now left. Qed.

(** Classes *)
Lemma check_names child c : Forall (fun p => made_of (cr_name child :: class_names c) (snd p)) (checkBase child c).
Proof.
  induction c as [i n d p x bs IH] using cxxrecord_ind'. rewrite check_eq. destruct d; cbn [negb]; [|constructor].
  apply Forall_app. split.
  - destruct (hasVirtualOrProtectedDestructor _); constructor; [|constructor]. cbn [snd]. unfold baseMessage. cbn [cr_name class_names].
    repeat apply mo_app; first [apply mo_lit; reflexivity|apply mo_name; cbn; auto].
  - destruct p; [constructor|]. apply Forall_forall. intros r H. apply base_reports_in in H as (c & Hc & H).
    specialize (IH _ _ Hc). rewrite Forall_forall in IH. eapply mo_weaken; [|exact (IH r H)].
    intros s [<-|K]; [now left|]. right. cbn [class_names]. right. apply in_flat_map. exists (true, Some c). auto.
Qed.
Lemma bases_fine n : Forall (fun p => made_of (quotable n) (snd p)) (BaseClassDestructor_visit n).
Proof.
  unfold BaseClassDestructor_visit, quotable. destruct (n_shape n); try constructor.
  destruct (r_class info) as [i name [|] [|] d bases] eqn:E; try constructor.
  apply Forall_forall. intros r H. fold (base_reports (CxxRecord i name true true d bases) bases) in H. apply base_reports_in in H as (c & Hc & H).
  pose proof (check_names (CxxRecord i name true true d bases) c) as F. rewrite Forall_forall in F. eapply mo_weaken; [|exact (F r H)].
  cbn [cr_name class_names]. intros s [<-|K]; [now left|]. right. apply in_flat_map. exists (true, Some c). auto.
Qed.

(** Rules with a limit *)
Lemma reports_fine (visit : node -> list report) d : (forall n, fine (quotable n) (visit n)) -> fine (flat_map quotable (nodes d)) (reports visit d).
Proof.
  intros H. unfold reports. apply fine_collect. intros m I. eapply fine_weaken; [|apply H]. intros s K. apply in_flat_map. eauto.
Qed.
Lemma outcome_fine visit d rs : (forall n r, visit n = Val r -> fine (flat_map quotable (nodes n)) r) -> reports_outcome visit d = Val rs ->
  fine (flat_map quotable (nodes d)) rs.
Proof.
  intros H E. apply outcome_nodes in E as (rss & F & ->).
  assert (K : forall l rss, (forall n, In n l -> In n (nodes d)) -> Forall2 (fun n r => visit n = Val r) l rss -> fine (flat_map quotable (nodes d)) (concat rss)).
  { clear -H. intros l rss. induction 2 as [|n r l rss E F IH]; [constructor|]. cbn [concat]. apply fine_app.
    - eapply fine_weaken; [|apply (H n r E)]. intros s I. apply in_flat_map in I as (m & Im & Is). apply in_flat_map. exists m. split; auto.
      apply in_nodes. apply in_nodes in Im. eapply below_trans; [|exact Im]. apply in_nodes. apply H0. now left.
    - apply IH. intros m Hm. apply H0. now right. }
  eapply K; [|exact F]. auto.
Qed.
Lemma quotable_nodes n s : In s (quotable n) -> In s (flat_map quotable (nodes n)).
Proof. intros H. apply in_flat_map. exists n. split; auto. apply in_nodes. apply below_self. Qed.
Lemma limit_fine c key dflt reads visit d rs : (forall t n, fine (quotable n) (visit t n)) ->
  with_limit c key dflt reads visit d = Val rs -> fine (flat_map quotable (nodes d)) rs.
Proof.
  intros H. apply outcome_fine. intros n r. destruct (reads n); [|intros [= <-]; constructor].
  destruct (intForKey c key dflt) as [t| |]; try discriminate. cbn [obind]. intros [= <-]. eapply fine_weaken; [apply quotable_nodes|]. apply H.
Qed.
Lemma setUp_fine c key dflt visit ds rs : (forall t n, fine (quotable n) (visit t n)) ->
  with_setUp c key dflt visit ds = Val rs -> fine (flat_map quotable (flat_map nodes ds)) rs.
Proof.
  intros H E. apply setUp_val in E as (T & _ & _ & ->). apply fine_flat. intros d Hd. eapply fine_weaken; [|apply reports_fine, H].
  intros s K. apply in_flat_map in K as (n & Hn & K). apply in_flat_map. exists n. split; auto. apply in_flat_map. eauto.
Qed.
Lemma onMethod_fine f : (forall n, fine (quotable n) (f n)) -> forall n, fine (quotable n) (onMethod f n).
Proof. intros H n. unfold onMethod. destruct (n_shape n); try constructor; apply H. Qed.

Lemma value_inj {A} (a b : A) : Val a = Val b -> a = b.
Proof. congruence. Qed.
Lemma npath_fine c d rs : NPathComplexityRule c d = Val rs -> fine (flat_map quotable (nodes d)) rs.
Proof.
  unfold NPathComplexityRule.
  apply outcome_fine. intros n r. unfold NPathComplexity_visit. intros H.
  assert (K : r = [] \/ exists p t, r = [Report n ($"NPath Complexity Number " ++ show_Z p ++ $" exceeds limit of " ++ show_Z t)]).
  { destruct (n_shape n); try (injection H as <-; now left); destruct (getBody n) as [b|]; try (injection H as <-; now left);
      destruct (n_shape b); try (injection H as <-; now left); destruct (nPath b) as [p| |]; try discriminate; cbn [obind] in H;
      destruct (intForKey c _ _) as [t| |]; try discriminate; cbn [obind] in H;
      injection H as <-; (destruct (_ >? _)%Z; [right; exists p, (fst t); reflexivity|left; reflexivity]). }
  destruct K as [->|(p & t & ->)]; [constructor|msg].
Qed.
Lemma firstn_in {A} k : forall (l : list A) x, In x (firstn k l) -> In x l.
Proof. induction k as [|k IH]; intros [|y l] x; cbn; try tauto. intros [|]; auto. Qed.
Lemma skipn_in {A} k : forall (l : list A) x, In x (skipn k l) -> In x l.
Proof. induction k as [|k IH]; intros [|y l] x; cbn; auto. Qed.
Lemma substr_at_in s p k r : substr_at s p k = Val r -> forall c, In c r -> In c s.
Proof.
  unfold substr_at. destruct (_ || _); [discriminate|]. intros [= <-] c. destruct k; intros H; [apply firstn_in in H|]; now apply skipn_in in H.
Qed.
Lemma shortened_made names s t r : In s names -> shortened s t = Val r -> made_of names r.
Proof.
  intros I. unfold shortened. destruct (substr_at s 0 _) as [a| |] eqn:A; try discriminate. cbn [obind].
  destruct (substr_at s _ (Some _)) as [b| |] eqn:B; try discriminate. cbn [obind]. intros H. apply value_inj in H. subst r.
  apply mo_app; [|apply mo_app; [apply mo_lit; reflexivity|]]; eapply mo_part; eauto; eapply substr_at_in; eauto.
Qed.
Lemma longname_fine c d rs : LongVariableNameRule c d = Val rs -> fine (flat_map quotable (nodes d)) rs.
Proof.
  unfold LongVariableNameRule. apply outcome_fine.
  intros n r. destruct (isVarDecl n); [|intros [= <-]; constructor]. destruct (intForKey c _ _) as [t| |]; try discriminate. cbn [obind].
  intros H. eapply fine_weaken; [apply quotable_nodes|]. revert H. unfold LongVariableName_visit, quotable.
  destruct (n_shape n); try (intros [= <-]; constructor). cbv zeta.
  destruct (_ >? _)%Z; [|intros [= <-]; constructor]. destruct (negb _); [discriminate|].
  match goal with |- obind ?x _ = _ -> _ => destruct x as [shown| |] eqn:E; try discriminate end. cbn [obind]. intros H. apply value_inj in H. subst r. msg.
  destruct (_ >? _)%Z in E; [eapply shortened_made; [|exact E]; now left|]. injection E as <-. apply mo_name. now left.
Qed.
Lemma protected_in container n rs :
  protectedReports (snd (traverse (fun x vs => (true, CheckMethodsInsideClass_visit container x vs)) n [])) = Val rs ->
  fine (flat_map quotable (nodes n)) rs.
Proof.
  rewrite traverse_nodes, visit_all_true by auto; cbn [snd].
  assert (G : forall l acc, (forall m, In m l -> In m (nodes n)) ->
      (forall p, In p acc -> In (fst p) (nodes n) /\ exists a b, n_shape (fst p) = ObjCMessageExpr (snd p) a b) ->
      forall p, In p (fold_left (fun s m => CheckMethodsInsideClass_visit container m s) l acc) ->
      In (fst p) (nodes n) /\ exists a b, n_shape (fst p) = ObjCMessageExpr (snd p) a b).
  { induction l as [|m l IH]; intros acc L A; cbn [fold_left]; auto. apply IH; [intros; apply L; now right|].
    intros p; cbn [snd]; unfold CheckMethodsInsideClass_visit; destruct (n_shape m) eqn:S; auto.
    destruct (negb _); auto; destruct (ms_interface _); auto; destruct (negb _); auto.
    rewrite in_app_iff; intros [I|[<-|[]]]; auto; cbn [fst snd]; split; [apply L; now left|eauto]. }
  specialize (G (nodes n) [] (fun m H => H) ltac:(intros p [])).
  match type of G with forall p, In p ?l -> _ => generalize dependent l end. intros l G. revert rs.
  induction l as [|[e i] l IH]; intros rs; cbn [protectedReports]; [intros E; apply value_inj in E; subst rs; constructor|].
  destruct (ms_methodClass i) as [sc|] eqn:SC; [|discriminate]. destruct (protectedReports l) as [rs'| |] eqn:R; try discriminate. cbn [obind]. intros H. apply value_inj in H. subst rs.
  destruct (G (e, i) (or_introl eq_refl)) as (I & a & b & Se). cbn [fst snd] in I, Se.
  constructor; [|apply IH; auto; intros p Hp; apply G; now right].
  cbn [rp_message]. eapply mo_weaken; [intros s Hs; apply in_flat_map; exists e; split; [exact I|exact Hs]|]. unfold quotable. rewrite Se, SC.
  apply mo_app; [apply mo_lit; reflexivity|]. apply mo_app; [apply mo_name; now left|]. apply mo_app; [apply mo_lit; reflexivity|].
  apply mo_app; [apply mo_name; right; now left|apply mo_lit; reflexivity].
Qed.
Lemma protected_fine d rs : reports_outcome ProtectedMethod_visit d = Val rs -> fine (flat_map quotable (nodes d)) rs.
Proof.
  apply outcome_fine. intros n r. unfold ProtectedMethod_visit. destruct (n_shape n); try (intros [= <-]; constructor).
  destruct info as [kind name lines ivars ms classes sup]. destruct kind; try (intros [= <-]; constructor).
  destruct classes as [|cl classes]; try (intros [= <-]; constructor). apply protected_in.
Qed.
Lemma stateful_fine {S} (visit : node -> S -> S * list report) names roots : (forall n st, In n (all_nodes roots) -> fine names (snd (visit n st))) ->
  forall init rs, fine names rs -> fine names (snd (fold_left (fun st root => snd (traverse (stateful_visit visit) root st)) roots (init, rs))).
Proof.
  intros H init rs F. rewrite stateful_nodes. revert H init rs F. generalize (all_nodes roots). induction l as [|n l IH]; intros H init rs F; cbn [fold_left]; auto.
  unfold stateful_visit at 2. destruct (visit n init) as [st r] eqn:E. cbn [snd]. apply IH; [intros; apply H; now right|].
  apply fine_app; auto. specialize (H n init (or_introl eq_refl)). now rewrite E in H.
Qed.
Lemma else_fine ds : fine [] (UnnecessaryElseRule ds).
Proof.
  unfold UnnecessaryElseRule, reports_stateful. apply stateful_fine; [|constructor]. intros n st _. unfold UnnecessaryElse_visit.
  destruct (isIf n); [|constructor]. destruct (existsb _ st); [constructor|]. destruct (elseChain n) as [a b]. cbn [snd]. repeat fine_step.
Qed.
Lemma short_fine t n st : fine (quotable n) (snd (ShortVariableName_visit t n st)).
Proof.
  unfold ShortVariableName_visit, quotable. destruct (n_shape n); cbn [snd]; try constructor. cbv zeta.
  destruct (_ || _)%Z; cbn [snd]; [constructor|]. destruct st as [|top rest]; cbn [snd]; [|destruct (_ =? _); [constructor|]]; msg; apply mo_name; now left.
Qed.

Lemma all_polite : Forall (fun p => polite (snd p)) shipped_behaviours.
Proof.
  unfold shipped_behaviours. repeat apply Forall_cons; try apply Forall_nil; cbn [snd polite]; try exact I.
  all: try solve [dull].
  all: intros.
  - rewrite <- (app_nil_r (DeadCode_visit n)). apply fine_app; [|constructor]. unfold DeadCode_visit. repeat fine_step; apply dead_fine.
  - apply isequal_fine.
  - apply super_fine.
  - apply prohibited_fine.
  - eapply protected_fine; eauto.
  - apply subclass_fine.
  - apply bases_fine.
  - unfold MisplacedDefault_visit. repeat fine_step; apply misplaced_fine.
  - apply virtual_fine.
  - eapply setUp_fine; [|exact H]. intros t n. unfold PreferEarlyExit_visit, addViolationIfStmtIsLongIf. repeat fine_step; msg.
  - eapply limit_fine; [|exact H]. intros t n. unfold TooFewBranches_visit. repeat fine_step.
  - eapply longname_fine; eauto.
  - apply else_fine.
  - eapply limit_fine; [|exact H]. intros t. apply onMethod_fine. intros n. cbv zeta. repeat fine_step; msg.
  - eapply setUp_fine; [|exact H]. intros t n. unfold LongClass_visit, LongClass_applyDecl. repeat fine_step; msg; try (destruct (oc_kind _)); apply mo_lit; vm_compute; reflexivity.
  - eapply limit_fine; [|exact H]. intros t. apply onMethod_fine. intros n. cbv zeta. repeat fine_step; msg.
  - eapply npath_fine; eauto.
  - eapply limit_fine; [|exact H]. intros t. apply onMethod_fine. intros n. cbv zeta. repeat fine_step; msg.
  - eapply limit_fine; [|exact H]. intros t n. unfold NestedBlockDepth_visit. cbv zeta. repeat fine_step; msg.
  - eapply setUp_fine; [|exact H]. intros t n. unfold TooManyFields_visit. cbv zeta. repeat fine_step; msg.
  - eapply setUp_fine; [|exact H]. intros t n. unfold TooManyMethods_visit. cbv zeta. repeat fine_step; msg.
  - eapply setUp_fine; [|exact H]. intros t. apply onMethod_fine. intros n. cbv zeta. repeat fine_step; msg.
  - unfold UnusedLocalVariableRule in H. destruct (skippedTypes c) as [sk| |]; try discriminate. injection H as <-. apply reports_fine.
    intros n. unfold UnusedLocalVariable_visit, quotable. destruct (n_shape n); try constructor. destruct (_ && _); [|constructor]. msg. apply mo_name. now left.
  - apply unusedparam_fine.
Qed.

(** ** A rule on a unit *)
Definition sound (x : tuctx) (k : nat) (v : violation) : Prop :=
  made_of (unit_quotable x) (v_message v) /\ place_path x (v_path v) /\ v_rule v = Some k.
Lemma added x k vs p a b c d m : place_path x p -> made_of (unit_quotable x) m -> Forall (sound x k) vs ->
  Forall (sound x k) (carrier_addViolation vs p a b c d (Some k) m).
Proof.
  intros P M F. unfold carrier_addViolation. destruct (negb _); auto. unfold vs_addViolation. apply Forall_app. split; auto.
  constructor; [|constructor]. split; [exact M|]. split; [exact P|reflexivity].
Qed.
Lemma added_report x k attr r st : made_of (unit_quotable x) (rp_message r) -> Forall (sound x k) (fst st) ->
  Forall (sound x k) (fst (add_report (cx_env x) k attr st r)).
Proof.
  intros M F. unfold add_report, addViolation_decl, addViolation_stmt, addViolation_loc.
  destruct (isDecl _); (destruct (_ : bool); [exact F|]); destruct (shouldSuppress_line _ _ _ _) as [[|] sc]; cbn [fst]; auto;
    apply added; auto; right; eauto.
Qed.
Lemma added_reports x k attr rs : forall st, fine (unit_quotable x) rs -> Forall (sound x k) (fst st) ->
  Forall (sound x k) (fst (fold_left (add_report (cx_env x) k attr) rs st)).
Proof.
  induction rs as [|r rs IH]; intros st F S; cbn [fold_left]; auto. apply IH; [now inversion F|].
  apply added_report; auto. now inversion F.
Qed.
Lemma lines_sound c x k l : forall vs sc r, LongLine_loop c (e_unit (cx_env x)) k l vs sc = Val r ->
  Forall (sound x k) vs -> Forall (sound x k) (fst r).
Proof.
  induction l as [|[n l0] l IH]; intros vs sc r; cbn [LongLine_loop]; [intros [= <-]; auto|].
  unfold LongLine_eachLine. destruct (intForKey c _ _) as [t| |]; try discriminate. cbn [obind]. cbv zeta.
  destruct (_ <? _)%Z; cbn [obind]; [|intros H F; eapply IH; eauto]. unfold addViolation_line.
  destruct (shouldSuppress_line _ _ _ _) as [[|] sc']; cbn [fst snd]; intros H F; eapply IH; eauto.
  apply added; auto; [now left|]. repeat apply mo_app; first [apply mo_num|apply mo_lit; vm_compute; reflexivity].
Qed.
Lemma each_root_in rule : forall roots rs, each_root rule roots = Val rs -> forall names,
  (forall d r, In d roots -> rule d = Val r -> fine names r) -> fine names rs.
Proof.
  induction roots as [|d roots IH]; intros rs E names H; cbn [each_root] in E; [injection E as <-; constructor|].
  destruct (rule d) as [a| |] eqn:A; try discriminate. cbn [obind] in E. destruct (each_root rule roots) as [b| |] eqn:B; try discriminate.
  apply value_inj in E. subst rs. apply fine_app; [eapply H; eauto; now left|]. eapply IH; eauto. intros d' r Hd. apply H. now right.
Qed.
Lemma calls_fine b c x st s r : polite b -> calls b c x st (set_up x s) (roots_of x s) = Val r -> fine (unit_quotable x) (snd r).
Proof.
  intros P E.
  assert (R : forall d n q, In d (roots_of x s) -> In n (nodes d) -> In q (quotable n) -> In q (unit_quotable x)).
  { intros d n q Hd Hn Hq. apply roots_of_tops in Hd as (t & Ht). unfold unit_quotable. apply in_flat_map. exists n. split; auto.
    apply in_flat_map. exists d. split; auto. apply in_map_iff. exists (t, d). auto. }
  destruct b as [visit|rule|rule|rule|visit| |]; cbn [calls polite] in *.
  - apply value_inj in E. subst r. cbn [snd]. apply fine_flat. intros d Hd. unfold reports. apply fine_collect. intros n Hn.
    eapply fine_weaken; [|apply P]. eauto.
  - destruct (each_root _ _) as [rs| |] eqn:F; try discriminate. apply value_inj in E. subst r. cbn [snd].
    eapply each_root_in; [exact F|]. intros d r Hd Hr. eapply fine_weaken; [|eapply P; exact Hr].
    intros q Hq. apply in_flat_map in Hq as (n & Hn & Hq). eauto.
  - destruct (set_up x s); [|apply value_inj in E; subst r; constructor]. destruct (rule c x _) as [rs| |] eqn:F; try discriminate.
    apply value_inj in E. subst r. cbn [snd]. eapply fine_weaken; [|eapply P; exact F].
    intros q Hq. apply in_flat_map in Hq as (n & Hn & Hq). apply in_flat_map in Hn as (d & Hd & Hn). eauto.
  - apply value_inj in E. subst r. cbn [snd]. eapply fine_weaken; [|apply P]. intros q [].
  - apply value_inj in E. subst r. cbn [snd]. apply Forall_forall. intros r Hr. apply in_map_iff in Hr as ([cl m] & <- & Hr).
    apply in_flat_map in Hr as (d & Hd & Hr). rewrite collect_nodes in Hr. apply in_flat_map in Hr as (n & Hn & Hr).
    specialize (P n). rewrite Forall_forall in P. specialize (P _ Hr). cbn [snd] in P. unfold base_report. destruct cl. cbn [rp_message].
    eapply mo_weaken; [|exact P]. eauto.
  - assert (G : forall t, fine (unit_quotable x) (snd (short_pure t st (roots_of x s)))).
    { intros t. unfold short_pure. rewrite <- stateful_nodes. apply stateful_fine; [|constructor]. intros n st' Hn. unfold all_nodes in Hn. apply in_flat_map in Hn as (d & Hd & Hn).
      eapply fine_weaken; [|apply short_fine]. eauto. }
    rewrite short_cases in E. destruct (intForKey c _ _) as [[t c']| |]; [| |]; try (destruct (existsb _ _); [discriminate|]); apply value_inj in E; subst r; apply G.
  - apply value_inj in E. subst r. constructor.
Qed.
Lemma takeoff_sound c k x st vs st' : takeoff c k x st = Val (vs, st') -> Forall (sound x k) vs.
Proof.
  unfold takeoff. destruct (nth_error shipped_behaviours k) as [[s b]|] eqn:N; [|discriminate].
  assert (P : polite b).
  { pose proof all_polite as A. rewrite Forall_forall in A. apply nth_error_In in N. now specialize (A _ N). }
  assert (G : forall b, polite b -> obind (calls b c x (r_stack st) (set_up x s) (roots_of x s)) (fun r =>
        let '(vs, sc) := fold_left (add_report (cx_env x) k (sh_attributeName s)) (snd r) ([], r_cache st) in
        Val (vs, {| r_cache := sc; r_stack := fst r |})) = Val (vs, st') -> Forall (sound x k) vs).
  { clear. intros b P. destruct (calls _ _ _ _ _ _) as [r| |] eqn:C; try discriminate. cbn [obind]. apply calls_fine in C; auto.
    pose proof (added_reports x k (sh_attributeName s) (snd r) ([], r_cache st) C ltac:(constructor)) as H.
    destruct (fold_left _ _ _) as [vs1 sc]. intros [= <- <-]. exact H. }
  destruct b as [visit|rule|rule|rule|visit| |]; try exact (G _ P).
  destruct (LongLine_apply _ _ _ _ _) as [r| |] eqn:L; try discriminate. cbn [obind]. intros [= <- <-].
  eapply lines_sound; [exact L|constructor].
Qed.
