(** * Suppressing through the whole program: C120, C121 *)
From Verif Require Import Base BaseFacts ModelResults ModelConfig ModelSource ModelAST ModelRules ModelRulesVars ModelRuleTable ModelProgram
  SpecFilter SpecAST SpecSource SpecRules SpecProgram SpecCatalogue SpecSuppression
  ProofFilter ProofRules ProofProgram PropSource PropRuleTable PropRules PropProgram PropCatalogue.
Local Arguments lit : simpl never.

(** The findings do not depend on annotations and comments. *)
Lemma same_finds s b : In (s, b) shipped_behaviours -> forall c x x', same_code x x' -> forall decls rs, finds c x s b decls rs -> finds c x' s b decls rs.
Proof.
  assert (F : Forall (fun sb => forall c x x', same_code x x' ->
     match snd sb with
     | BVisit visit => forall n, visit x n = visit x' n
     | BChecked rule => forall n, rule c x n = rule c x' n
     | BSetUp rule => forall l, rule c x l = rule c x' l
     | _ => True
     end) shipped_behaviours).
  { unfold shipped_behaviours. repeat (apply Forall_cons || apply Forall_nil); cbn [fst snd]; intros c x x' H; try exact I; try (intros; reflexivity).
    all: destruct H as (_ & _ & E1 & E2 & E3 & _); intros n; rewrite ?E1, ?E2, ?E3; reflexivity. }
  rewrite Forall_forall in F. intros I c x x' H decls rs Fi. specialize (F (s, b) I c x x' H). cbn [snd] in F.
  destruct Fi; try (now constructor).
  - assert (E : forall l, flat_map (visit x) l = flat_map (visit x') l).
    { intros l. induction l as [|n l IH]; cbn [flat_map]; auto. now rewrite F, IH. }
    rewrite E. constructor.
  - constructor. clear - F H0. induction H0; constructor; auto. now rewrite <- F.
  - constructor; [destruct H as (-> & _); assumption|now rewrite <- F].
  - apply fi_not_setup. destruct H as (-> & _); assumption.
Qed.
Lemma same_examined x x' s decls : same_code x x' -> examined x s decls -> examined x' s decls.
Proof. intros (E1 & E2 & _) (sel & S & E). exists sel. now rewrite E1, E2. Qed.
Lemma same_well_formed x x' : same_code x x' -> well_formed x -> well_formed x'.
Proof. intros (_ & E & _). unfold well_formed. now rewrite E. Qed.
Lemma not_lines k s b name : named k s name -> name <> $"long line" -> nth_error shipped_behaviours k = Some (s, b) -> b <> BLines.
Proof.
  intros N Nl Hb ->. destruct N as [_ E].
  assert (F : forallb (fun sb => match snd sb with BLines => str_eqb (sh_name (fst sb)) $"long line" | _ => true end) shipped_behaviours = true) by (vm_compute; reflexivity).
  rewrite forallb_forall in F. specialize (F _ (nth_error_In _ _ Hb)). cbn [fst snd] in F. apply str_eqb_eq in F. congruence.
Qed.
Lemma sublist_where_map {X Y} (f : X -> Y) (P : Y -> Prop) l sel : sublist_where (fun a => P (f a)) l sel -> sublist_where P (map f l) (map f sel).
Proof. induction 1; cbn [map]; constructor; auto. Qed.
Lemma sublist_where_refine {X} (P Q : X -> Prop) l sel sel' : sublist_where P l sel -> sublist_where Q sel sel' -> sublist_where (fun a => P a /\ Q a) l sel'.
Proof.
  intros S. revert sel'. induction S as [|a l sel Pa S IH|a l sel Na S IH]; intros sel' S'.
  - inversion S'; constructor.
  - inversion S'; subst; constructor; auto. tauto.
  - constructor; auto. tauto.
Qed.
Lemma sublist_where_ext {X} (P Q : X -> Prop) l sel : (forall a, P a <-> Q a) -> sublist_where P l sel -> sublist_where Q l sel.
Proof. intros E S. induction S; constructor; auto; rewrite <- ?E; auto. Qed.
Lemma sublist_where_all {X} (P : X -> Prop) l sel : sublist_where P l sel -> (forall a, P a) -> sel = l.
Proof. induction 1; intros A; auto; [f_equal; auto|exfalso; auto]. Qed.

(** Two units with the same code record the same findings, each leaving out what it hides. *)
Lemma same_code_findings c k s b x x' vs : same_code x x' -> nth_error shipped_behaviours k = Some (s, b) -> b <> BLines -> well_formed x ->
  alone c k x vs -> exists decls rs kept, examined x s decls /\ finds c x s b decls rs
    /\ sublist_where (recorded (cx_env x) (sh_attributeName s)) rs kept /\ vs = map (violation_of (cx_env x) k) kept
    /\ forall kept', sublist_where (recorded (cx_env x') (sh_attributeName s)) rs kept' -> alone c k x' (map (violation_of (cx_env x) k) kept').
Proof.
  intros Sc Hb B W A. destruct (proj1 (c113_findings_exactly c k x s b vs W Hb B) A) as (decls & rs & kept & D & F & S & ->).
  exists decls, rs, kept. repeat (split; [assumption || reflexivity|]). intros kept' S'.
  apply (c113_findings_exactly c k x' s b _ (same_well_formed _ _ Sc W) Hb B). exists decls, rs, kept'.
  split; [eapply same_examined; eauto|]. split; [eapply same_finds; eauto; eapply nth_error_In; eauto|]. split; auto.
  apply map_ext. intros r. unfold violation_of. destruct Sc as (_ & _ & _ & _ & _ & L). now rewrite L.
Qed.

(** ** C120 *)
(** A comment hides the violations on its line, of every rule, and nothing else. *)
Theorem c120_comment_hides_its_line : forall c k s name x x' line vs, commented x x' line -> well_formed x ->
  named k s name -> name <> $"long line" -> alone c k x vs ->
  exists vs', alone c k x' vs' /\ sublist_where (fun v => v_startLine v <> line) vs vs'.
Proof.
  intros c k s name x x' line vs (Sc & De & Co) W N Nl A. destruct (named_row _ _ _ N) as [b Hb].
  destruct (same_code_findings c k s b x x' vs Sc Hb (not_lines _ _ _ _ N Nl Hb) W A) as (decls & rs & kept & D & F & S & -> & H).
  assert (Q : exists kept', sublist_where (fun r => l_line (e_loc (cx_env x) (n_id (rp_node r))) <> line) kept kept').
  { exists (filter (fun r => negb (l_line (e_loc (cx_env x) (n_id (rp_node r))) =? line)%Z) kept). apply filter_sublist_where. intros r.
    rewrite negb_true_iff. apply Z.eqb_neq. }
  destruct Q as [kept' S']. exists (map (violation_of (cx_env x) k) kept'). split; [|apply sublist_where_map; exact S'].
  apply H. eapply sublist_where_ext; [|eapply sublist_where_refine; eauto]. intros r. cbv beta.
  destruct Sc as (_ & _ & _ & _ & _ & L). destruct (De (n_id (rp_node r))) as [Ed Ep].
  unfold recorded, hidden. cbv zeta. rewrite L, Ed, Ep. unfold main_unit in Co. rewrite Co. intuition auto.
Qed.

(** ** C121 *)
Lemma rule_text_inj r name reason rest : ~ In "]"%char r -> ~ In "]"%char name ->
  $"oclint:suppress[" ++ name ++ $"]" ++ reason = $"oclint:suppress[" ++ r ++ $"]" ++ rest -> r = name.
Proof.
  intros Nr Nn E. apply app_inv_head in E. revert r Nr Nn E. induction name as [|a name IH]; intros [|b r] Nr Nn E; auto.
  - cbn in E. injection E as <- _. exfalso. apply Nr. now left.
  - cbn in E. injection E as -> _. exfalso. apply Nn. now left.
  - cbn in E. injection E as -> E. f_equal. apply IH; auto; intros J; [apply Nr|apply Nn]; now right.
Qed.
Definition hides_text (text attr : str) : Prop := text = $"oclint:suppress" \/ exists rest, text = $"oclint:suppress[" ++ attr ++ $"]" ++ rest.
Lemma one_more_suppresses text d d' attr : one_more text d d' -> suppresses d' attr <-> suppresses d attr \/ hides_text text attr.
Proof.
  intros [a m]. unfold suppresses, hides_all, hides_rule, hides_text. cbn [annotations_of]. split.
  - intros [H|(l & Cl & rest & H)].
    + apply in_app_or in H as [H|[H|[]]]; auto.
    + inversion Cl; subst; try (left; right; eexists; split; [econstructor; eauto|eauto]; fail).
      apply in_app_or in H as [H|[H|[]]]; [left; right; exists a; split; [constructor|eauto]|right; right; eauto].
  - intros [[H|(l & Cl & rest & H)]|[->|(rest & ->)]].
    + left. apply in_or_app. auto.
    + right. inversion Cl; subst; try (eexists; split; [econstructor; eauto|eauto]; fail).
      exists (l ++ [text]). split; [constructor|]. exists rest. apply in_or_app. auto.
    + left. apply in_or_app. right. left. reflexivity.
    + right. eexists. split; [constructor|]. exists rest. apply in_or_app. right. left. reflexivity.
Qed.
Lemma one_more_above_suppresses text p p' attr : one_more_above text p p' ->
  (exists d, on_chain p' d /\ suppresses d attr) <-> (exists d, on_chain p d /\ suppresses d attr) \/ hides_text text attr.
Proof.
  induction 1 as [d d' up others O|d up up' others O IH|up up' others O IH].
  - pose proof (one_more_suppresses text d d' attr O) as E. split.
    + intros (e & Ce & Se). inversion Ce; subst.
      * apply E in Se as [Se|Se]; auto. left. exists d. split; auto. constructor.
      * left. exists e. split; auto. now constructor.
    + intros [(e & Ce & Se)|Ht].
      * inversion Ce; subst; [exists d'; split; [constructor|apply E; auto]|exists e; split; auto; now constructor].
      * exists d'. split; [constructor|apply E; auto].
  - split.
    + intros (e & Ce & Se). inversion Ce; subst; [left; exists e; split; auto; constructor|].
      destruct (proj1 IH) as [(e' & Ce' & Se')|Ht]; eauto. left. exists e'. split; auto. now apply oc_decl.
    + intros [(e & Ce & Se)|Ht].
      * inversion Ce; subst; [exists e; split; auto; constructor|]. destruct (proj2 IH) as (e' & Ce' & Se'); eauto. exists e'. split; auto. now apply oc_decl.
      * destruct (proj2 IH) as (e' & Ce' & Se'); auto. exists e'. split; auto. now apply oc_decl.
  - split.
    + intros (e & Ce & Se). inversion Ce; subst.
      destruct (proj1 IH) as [(e' & Ce' & Se')|Ht]; eauto. left. exists e'. split; auto. now apply oc_stmt.
    + intros [(e & Ce & Se)|Ht].
      * inversion Ce; subst. destruct (proj2 IH) as (e' & Ce' & Se'); eauto. exists e'. split; auto. now apply oc_stmt.
      * destruct (proj2 IH) as (e' & Ce' & Se'); auto. exists e'. split; auto. now apply oc_stmt.
Qed.
Lemma annotated_hidden x x' text i0 under attr r : annotated x x' text i0 under -> (forall i, under i \/ ~ under i) ->
  hidden (cx_env x') attr r <-> hidden (cx_env x) attr r \/ (hides_text text attr /\ concerns i0 under r).
Proof.
  intros (Sc & Co & O & Od & Ou & On) Dec. destruct Sc as (_ & _ & _ & _ & _ & L). unfold hidden, concerns. cbv zeta. rewrite <- !declaration_iff.
  unfold main_unit in Co. rewrite L, Co. set (i := n_id (rp_node r)).
  assert (P : (exists d, on_chain (e_parents (cx_env x') i) d /\ suppresses d attr) <->
              (exists d, on_chain (e_parents (cx_env x) i) d /\ suppresses d attr) \/ (hides_text text attr /\ under i)).
  { destruct (Dec i) as [U|U]; [rewrite (one_more_above_suppresses _ _ _ _ (Ou i U))|rewrite (On i U)]; tauto. }
  rewrite P. destruct (Nat.eq_dec i i0) as [E|E].
  - rewrite E in *. rewrite (one_more_suppresses _ _ _ _ O). destruct (isDecl (rp_node r)); intuition congruence.
  - rewrite (Od i E). destruct (isDecl (rp_node r)); intuition congruence.
Qed.
Lemma annotated_records c k s name x x' text i0 under vs : annotated x x' text i0 under -> (forall i, under i \/ ~ under i) ->
  well_formed x -> named k s name -> name <> $"long line" -> alone c k x vs ->
  exists rs kept, all_findings c k x rs /\ sublist_where (recorded (cx_env x) (sh_attributeName s)) rs kept
    /\ vs = map (violation_of (cx_env x) k) kept
    /\ forall kept', sublist_where (fun r => ~ (hides_text text (sh_attributeName s) /\ concerns i0 under r)) kept kept' ->
         alone c k x' (map (violation_of (cx_env x) k) kept').
Proof.
  intros An Dec W N Nl A. destruct (named_row _ _ _ N) as [b Hb].
  pose proof (proj1 An) as Sc.
  destruct (same_code_findings c k s b x x' vs Sc Hb (not_lines _ _ _ _ N Nl Hb) W A) as (decls & rs & kept & D & F & S & -> & H).
  exists rs, kept. split; [exists s, b, decls; auto|]. split; auto. split; auto. intros kept' S'. apply H.
  eapply sublist_where_ext; [|eapply sublist_where_refine; eauto]. intros r. cbv beta.
  unfold recorded. rewrite (annotated_hidden x x' text i0 under _ r An Dec). destruct Sc as (_ & _ & _ & _ & _ & L). rewrite L. tauto.
Qed.
Lemma concerns_filter i0 under l : (forall i, under i \/ ~ under i) -> exists l', sublist_where (fun r => ~ concerns i0 under r) l l'.
Proof.
  intros Dec. induction l as [|r l [l' IH]]; [exists []; constructor|].
  assert (D : concerns i0 under r \/ ~ concerns i0 under r).
  { unfold concerns. rewrite <- declaration_iff. destruct (Dec (n_id (rp_node r))); auto. destruct (isDecl (rp_node r)); [|intuition congruence].
    destruct (Nat.eq_dec (n_id (rp_node r)) i0); intuition auto. }
  destruct D; [exists l'; constructor; auto|exists (r :: l'); constructor; auto].
Qed.
(** An annotation for one rule changes nothing for the others ... *)
Theorem c121_others_unaffected : forall c k s name x x' a reason i0 under vs,
  In a shipped_rules -> annotated x x' ($"oclint:suppress[" ++ sh_attributeName a ++ $"]" ++ reason) i0 under ->
  (forall i, under i \/ ~ under i) -> well_formed x -> named k s name -> name <> $"long line" -> s <> a ->
  alone c k x vs -> alone c k x' vs.
Proof.
  intros c k s name x x' a reason i0 under vs Ia An Dec W N Nl Ne A.
  destruct (annotated_records _ _ _ _ _ _ _ _ _ _ An Dec W N Nl A) as (rs & kept & _ & _ & -> & H). apply H.
  assert (Is : In s shipped_rules) by (destruct N as [N _]; eapply nth_error_In; eauto).
  assert (Q : ~ hides_text ($"oclint:suppress[" ++ sh_attributeName a ++ $"]" ++ reason) (sh_attributeName s)).
  { intros [E|(rest & E)]; [discriminate E|].
    assert (sh_attributeName s = sh_attributeName a).
    { apply (rule_text_inj (sh_attributeName s) (sh_attributeName a) reason rest); auto using no_bracket_in_attributes. }
    apply Ne. now apply (proj2 (c108_names_are_unambiguous s a Is Ia)). }
  clear - Q. induction kept; constructor; auto. tauto.
Qed.
(** ... and hides the findings of its rule on the declaration and below, and no others. *)
Theorem c121_hides_its_rule_inside : forall c k s name x x' reason i0 under vs,
  annotated x x' ($"oclint:suppress[" ++ sh_attributeName s ++ $"]" ++ reason) i0 under ->
  (forall i, under i \/ ~ under i) -> well_formed x -> named k s name -> name <> $"long line" ->
  alone c k x vs ->
  exists rs kept kept', all_findings c k x rs /\ sublist_where (recorded (cx_env x) (sh_attributeName s)) rs kept
    /\ vs = map (violation_of (cx_env x) k) kept
    /\ sublist_where (fun r => ~ concerns i0 under r) kept kept'
    /\ alone c k x' (map (violation_of (cx_env x) k) kept').
Proof.
  intros c k s name x x' reason i0 under vs An Dec W N Nl A.
  destruct (annotated_records _ _ _ _ _ _ _ _ _ _ An Dec W N Nl A) as (rs & kept & Af & S & -> & H).
  destruct (concerns_filter i0 under kept Dec) as [kept' S']. exists rs, kept, kept'. repeat (split; auto).
  apply H. eapply sublist_where_ext; [|exact S']. intros r.
  assert (hides_text ($"oclint:suppress[" ++ sh_attributeName s ++ $"]" ++ reason) (sh_attributeName s)) by (right; eauto). tauto.
Qed.
(** The annotation without a rule hides the findings of every rule there. *)
Theorem c121_hides_all_inside : forall c k s name x x' i0 under vs,
  annotated x x' $"oclint:suppress" i0 under ->
  (forall i, under i \/ ~ under i) -> well_formed x -> named k s name -> name <> $"long line" ->
  alone c k x vs ->
  exists rs kept kept', all_findings c k x rs /\ sublist_where (recorded (cx_env x) (sh_attributeName s)) rs kept
    /\ vs = map (violation_of (cx_env x) k) kept
    /\ sublist_where (fun r => ~ concerns i0 under r) kept kept'
    /\ alone c k x' (map (violation_of (cx_env x) k) kept').
Proof.
  intros c k s name x x' i0 under vs An Dec W N Nl A.
  destruct (annotated_records _ _ _ _ _ _ _ _ _ _ An Dec W N Nl A) as (rs & kept & Af & S & -> & H).
  destruct (concerns_filter i0 under kept Dec) as [kept' S']. exists rs, kept, kept'. repeat (split; auto).
  apply H. eapply sublist_where_ext; [|exact S']. intros r.
  assert (hides_text $"oclint:suppress" (sh_attributeName s)) by (left; reflexivity). tauto.
Qed.
(** Long lines: appending the comment may lengthen its own line. *)
Definition same_but (line : Z) (ls ls' : list str) : Prop :=
  Forall2 (fun l l' => fst l = fst l' /\ (fst l <> line -> snd l = snd l')) (numbered 1 ls) (numbered 1 ls').
Theorem c120_comment_on_long_line : forall c c' T k s x x' line ls ls' vs, named k s $"long line" ->
  intForKey c $"LONG_LINE" 100 = Val (T, c') -> u_path (main_unit x) <> [] -> u_path (main_unit x') = u_path (main_unit x) ->
  u_top (main_unit x') = u_top (main_unit x) -> lines_of (u_content (main_unit x)) ls -> lines_of (u_content (main_unit x')) ls' ->
  same_but line ls ls' -> (forall l, comment_on (main_unit x') l <-> comment_on (main_unit x) l \/ l = line) ->
  alone c k x vs -> exists vs', alone c k x' vs' /\ sublist_where (fun v => v_startLine v <> line) vs vs'.
Proof.
  intros c c' T k s x x' line ls ls' vs N HT P P' Tp L L' Sb Co A.
  apply (c116_long_line c c' T k x s vs ls N HT P L) in A as (sel & S & ->).
  assert (Q : exists sel', sublist_where (fun l => fst l <> line) sel sel').
  { exists (filter (fun l => negb (fst l =? line)%Z) sel). apply filter_sublist_where. intros r. rewrite negb_true_iff. apply Z.eqb_neq. }
  destruct Q as [sel' S'].
  eexists. split; [|apply sublist_where_map; exact S']. cbv beta.
  apply (c116_long_line c c' T k x' s _ ls' N HT); [now rewrite P'|exact L'|]. exists sel'. rewrite P'. split; [|reflexivity].
  unfold same_but in Sb. revert sel sel' S S'. induction Sb as [|l l' m m' [E1 E2] F IH]; intros sel sel' S S'.
  - inversion S; subst. inversion S'. constructor.
  - assert (G : forall n : Z * str, in_suppressed_decl (main_unit x') $"long line" (fst n) <-> in_suppressed_decl (main_unit x) $"long line" (fst n)).
    { intros n. unfold in_suppressed_decl. now rewrite Tp. }
    destruct (Z.eq_dec (fst l) line) as [E|E].
    + apply sw_drop; [intros (_ & Nc & _); apply Nc, (proj2 (Co _)); right; rewrite <- E; symmetry; exact E1|].
      inversion S; subst; [inversion S'; subst; [exfalso; cbv beta in *; auto|]; eapply IH; eauto|eapply IH; eauto].
    + specialize (E2 E). assert (l = l') as <- by (destruct l, l'; cbn in *; congruence).
      inversion S; subst.
      * inversion S'; subst; [|exfalso; cbv beta in *; auto]. apply sw_take; [rewrite Co, G; intuition auto|eapply IH; eauto].
      * apply sw_drop; [rewrite Co, G; intuition auto|eapply IH; eauto].
Qed.
(** ** Cases: the goto of b.c commented; its function annotated *)
Definition exu (lines : list Z) (annots : list str) : tuctx :=
  {| cx_env := {| e_unit := {| u_path := $"b.c"; u_content := $"short" ++ [NL] ++ $"text";
                               u_comments := Some (map (fun l => Some {| cm_text := $"//!OCLINT"; cm_line := l |}) lines); u_top := [] |};
                  e_decl := fun i => Decl (if i =? 200 then annots else []) None;
                  e_parents := fun i => if (200 <? i) && (i <=? 208) then Parents PStmt (Parents (PDecl (Decl annots None)) NoParent []) [] else NoParent;
                  e_loc := e_loc (cx_env ex_y) |};
     cx_lang := cx_lang ex_y; cx_tops := cx_tops ex_y; cx_evaluate := fun _ => None; cx_lines := fun _ => 1%Z; cx_sameExpr := fun _ _ => false |}.
Example c120_case : commented (exu [8%Z] []) (exu [8%Z; 6%Z] []) 6 /\ well_formed (exu [8%Z] [])
  /\ (exists v, alone cfg_fresh 10 (exu [8%Z] []) [v] /\ v_startLine v = 6%Z) /\ alone cfg_fresh 10 (exu [8%Z; 6%Z] []) []
  /\ (exists w, alone cfg_fresh 63 (exu [8%Z] []) [w] /\ alone cfg_fresh 63 (exu [8%Z; 6%Z] []) [w]).
Proof.
  split.
  - split; [repeat split|]. split; [auto|]. intros l. unfold comment_on. split.
    + intros (cs & c & E & I & <- & t). injection E as <-. destruct I as [I|[I|[]]]; injection I as <-; [left|right; reflexivity].
      do 2 eexists. split; [reflexivity|]. split; [left; reflexivity|]. auto.
    + intros [(cs & c & E & I & <- & t)|El].
      * injection E as <-. destruct I as [I|[]]; injection I as <-. do 2 eexists. split; [reflexivity|]. split; [left; reflexivity|]. auto.
      * subst l. do 2 eexists. split; [reflexivity|]. split; [right; left; reflexivity|]. split; [reflexivity|]. exists [], []. reflexivity.
  - split; [vm_compute; repeat constructor; auto|].
    split; [eexists; split; [apply alone_iff; do 2 eexists; split; vm_compute; reflexivity|reflexivity]|].
    split; [apply alone_iff; do 2 eexists; split; vm_compute; reflexivity|].
    eexists; split; apply alone_iff; do 2 eexists; split; vm_compute; reflexivity.
Qed.
Example c121_case :
  annotated (exu [] []) (exu [] [$"oclint:suppress[goto statement]" ++ $"[why]"]) ($"oclint:suppress[" ++ sh_attributeName sh_GotoStatement ++ $"]" ++ $"[why]") 200 (fun i => 200 < i <= 208)
  /\ (exists v, alone cfg_fresh 10 (exu [] []) [v]) /\ alone cfg_fresh 10 (exu [] [$"oclint:suppress[goto statement]" ++ $"[why]"]) []
  /\ (exists v, alone cfg_fresh 52 (exu [] []) [v] /\ alone cfg_fresh 52 (exu [] [$"oclint:suppress[goto statement]" ++ $"[why]"]) [v]).
Proof.
  split.
  - split; [repeat split|]. split; [tauto|]. split; [apply (om _ [])|]. split; [|split].
    + intros i N. cbn. destruct (Nat.eqb_spec i 200); [contradiction|reflexivity].
    + intros i [U1 U2]. cbn -[Nat.leb Nat.ltb]. rewrite (proj2 (Nat.ltb_lt _ _) U1), (proj2 (Nat.leb_le _ _) U2). cbn [andb].
      apply oma_stmt, oma_here. apply (om _ []).
    + intros i N. cbn -[Nat.leb Nat.ltb]. destruct (200 <? i) eqn:E1, (i <=? 208) eqn:E2; auto.
      exfalso. apply N. split; [now apply Nat.ltb_lt|now apply Nat.leb_le].
  - split; [eexists; apply alone_iff; do 2 eexists; split; vm_compute; reflexivity|].
    split; [apply alone_iff; do 2 eexists; split; vm_compute; reflexivity|].
    eexists; split; apply alone_iff; do 2 eexists; split; vm_compute; reflexivity.
Qed.
Print Assumptions c120_comment_hides_its_line.
Print Assumptions c120_comment_on_long_line.
Print Assumptions c121_others_unaffected.
Print Assumptions c121_hides_its_rule_inside.
Print Assumptions c121_hides_all_inside.
