(** * Theorems C38-C46: source lines, suppression, gating *)
From Verif Require Import Base BaseFacts ModelResults ModelConfig SpecFilter ProofFilter
  ProofResults ModelSource SpecSource ProofSource.
From Coq Require Import Lia.
Local Arguments lit : simpl never.

(** ** C38 *)
Theorem c38_lines_complete_and_numbered : forall content,
  exists ls, lines_of content ls /\ source_lines content = numbered 1 ls.
Proof.
  intros. destruct (lines_loop_spec (length content) content 1 (le_n _)) as (ls & H & E). eauto.
Qed.
(** There is only one such list. *)
Theorem c38_lines_unique : forall content l1 l2, lines_of content l1 -> lines_of content l2 -> l1 = l2.
Proof. apply lines_of_unique. Qed.
Example c38_case : source_lines ($"ab" ++ [NL; NL] ++ $"c" ++ [NL])
  = [(1%Z, $"ab"); (2%Z, []); (3%Z, $"c")].
Proof. reflexivity. Qed.
Example c38_case_spec : lines_of ($"ab" ++ [NL] ++ $"c") [$"ab"; $"c"].
Proof.
  split.
  - constructor; [|constructor; [|constructor]];
      intros H; cbv in H; repeat (destruct H as [H|H]; [discriminate H|]); exact H.
  - right. split; [discriminate|]. split; [|reflexivity].
    intros a E. apply (f_equal (fun s => last s "x"%char)) in E. rewrite last_last in E. discriminate E.
Qed.

(** ** C39 *)
Lemma own_of_history hist u r :
  (forall q, In q hist -> same_file u q -> q_unit q = u /\ (q_rule q = None \/ q_rule q = Some r)) ->
  cache_own (ask_all hist sc_fresh) u r.
Proof.
  intros H. pose proof (cache_inv_all hist (u_path u)) as I. unfold cache_own.
  destruct (lookup (sc_lines _) _) as [ls|].
  - destruct I as (q0 & F & -> & R).
    assert (X : forall q P, first_such P hist q -> In q hist).
    { intros q P (a & b & -> & _). apply in_or_app. simpl; auto. }
    assert (q_unit q0 = u).
    { apply (H q0); [eapply X; eauto|]. destruct F as (? & ? & _ & F & _). exact F. }
    subst. split; auto.
    destruct (lookup (sc_ranges _) _) as [rs|]; auto.
    destruct R as (q1 & r1 & F1 & A & ->). right.
    assert (I1 : In q1 hist) by (eapply X; eauto).
    destruct F1 as (? & ? & _ & [F1 _] & _).
    destruct (H q1 I1 F1) as [-> [B|B]]; congruence.
  - destruct I as [_ ->]. auto.
Qed.

Definition long_line_violation (u : tunit) (rule : nat) (limit : Z) (x : Z * str) : violation :=
  let size := Z.of_nat (length (snd x)) in
  {| v_rule := Some rule; v_path := u_path u; v_startLine := fst x; v_startColumn := 1;
     v_endLine := fst x; v_endColumn := size;
     v_message := $"Line with " ++ show_Z size ++ $" characters exceeds limit of " ++ show_Z limit |}.

Lemma long_line_loop c c' T u rule lines : forall vs sc,
  intForKey c $"LONG_LINE" 100 = Val (T, c') -> u_path u <> [] ->
  cache_own sc u $"long line" ->
  exists sel sc',
    sublist_where (fun x => (T < Z.of_nat (length (snd x)))%Z /\ ~ comment_on u (fst x)
                            /\ ~ in_suppressed_decl u $"long line" (fst x)) lines sel
    /\ LongLine_loop c u rule lines vs sc = Val (vs ++ map (long_line_violation u rule T) sel, sc').
Proof.
  induction lines as [|[n l] lines IH]; intros vs sc HT Hp Own.
  - exists [], sc. split; [constructor|]. simpl. now rewrite app_nil_r.
  - cbn [LongLine_loop]. unfold LongLine_eachLine. rewrite HT. cbn [obind fst snd].
    destruct (Z.ltb_spec T (Z.of_nat (length l))) as [Hl|Hl].
    + unfold addViolation_line.
      destruct (own_step sc u $"long line" n Own) as [Own' A].
      destruct (shouldSuppress_line n u (Some $"long line") sc) as [b sc'] eqn:E.
      cbn [fst snd] in Own', A. subst b.
      destruct (existsb (Z.eqb n) (commentLines u) || inRanges n (collectRanges u $"long line")) eqn:B.
      * cbn [obind fst snd]. destruct (IH vs sc' HT Hp Own') as (sel & sc2 & S & R).
        exists sel, sc2. split; auto. apply sw_drop; auto. cbn [fst snd]. intros (_ & N1 & N2).
        apply orb_true_iff in B as [B|B].
        -- apply N1, commentLines_in. now apply existsb_Zeqb.
        -- apply N2. now apply inRanges_collect.
      * cbn [obind fst snd].
        destruct (IH (carrier_addViolation vs (u_path u) n 1 n (Z.of_nat (length l)) (Some rule)
          ($"Line with " ++ show_Z (Z.of_nat (length l)) ++ $" characters exceeds limit of " ++ show_Z T))
          sc' HT Hp Own') as (sel & sc2 & S & R).
        exists ((n, l) :: sel), sc2. split.
        -- apply orb_false_iff in B as [B1 B2].
           apply sw_take; auto. cbn [fst snd]. repeat split; auto.
           ++ intros H. apply commentLines_in, existsb_Zeqb in H. congruence.
           ++ intros H. apply inRanges_collect in H. congruence.
        -- rewrite R. f_equal. f_equal. unfold carrier_addViolation.
           destruct (str_eqb (u_path u) []) eqn:Ep; [apply str_eqb_eq in Ep; congruence|].
           simpl negb. cbv iota. unfold vs_addViolation. rewrite <- app_assoc. reflexivity.
    + cbn [obind fst snd]. destruct (IH vs sc HT Hp Own) as (sel & sc2 & S & R).
      exists sel, sc2. split; auto. apply sw_drop; auto. cbn [fst snd]. intros [H _]. lia.
Qed.

(** With limit [T], the rule reports exactly the lines longer than [T] that are not
    suppressed, once each and in order -- provided earlier questions about the file were
    about this unit and this rule (or without rule). *)
Theorem c39_long_lines_exactly : forall c c' T u rule vs hist ls,
  intForKey c $"LONG_LINE" 100 = Val (T, c') ->
  u_path u <> [] ->
  (forall q, In q hist -> same_file u q ->
     q_unit q = u /\ (q_rule q = None \/ q_rule q = Some $"long line")) ->
  lines_of (u_content u) ls ->
  exists sel sc',
    sublist_where (fun x => (T < Z.of_nat (length (snd x)))%Z /\ ~ comment_on u (fst x)
                            /\ ~ in_suppressed_decl u $"long line" (fst x)) (numbered 1 ls) sel
    /\ LongLine_apply c u rule vs (ask_all hist sc_fresh)
       = Val (vs ++ map (fun x =>
           {| v_rule := Some rule; v_path := u_path u;
              v_startLine := fst x; v_startColumn := 1;
              v_endLine := fst x; v_endColumn := Z.of_nat (length (snd x));
              v_message := $"Line with " ++ show_Z (Z.of_nat (length (snd x)))
                           ++ $" characters exceeds limit of " ++ show_Z T |}) sel, sc').
Proof.
  intros c c' T u rule vs hist ls HT Hp Hh Hl. unfold LongLine_apply.
  rewrite (proj1 (source_lines_iff _ _) Hl).
  apply (long_line_loop c c' T u rule (numbered 1 ls) vs (ask_all hist sc_fresh) HT Hp).
  now apply own_of_history.
Qed.

Definition exu : tunit :=
  {| u_path := $"a.c"; u_content := $"aaaa" ++ [NL] ++ $"bbb" ++ [NL] ++ $"cccccc" ++ [NL] ++ $"ddddd";
     u_comments := Some [None; Some {| cm_text := $"//!OCLINT ok"; cm_line := 3 |}];
     u_top := [{| td_validLoc := true; td_inMainFile := true;
                  td_visited := [{| vd_decl := Decl [$"oclint:suppress[x]"] None;
                                    vd_startLine := 1; vd_endLine := 2 |}] |}] |}.
Example c39_case :
  exists sc, LongLine_apply (Some [($"LONG_LINE", $"3")]) exu 7 [] sc_fresh
  = Val (map (long_line_violation exu 7 3) [(1%Z, $"aaaa"); (4%Z, $"ddddd")], sc).
Proof. eexists. vm_compute. reflexivity. Qed.

(** ** C40 *)
Theorem c40_plain_matches_itself_only : forall annotation name comment,
  ~ has_bracket name ->
  attributeHasAnnotation annotation name comment = (true, comment) /\ annotation = name
  \/ attributeHasAnnotation annotation name comment = (false, comment) /\ annotation <> name.
Proof.
  intros annotation name comment H. rewrite aha_plain by exact H.
  destruct (str_eqb name annotation) eqn:E.
  - left. apply str_eqb_eq in E. auto.
  - right. apply str_eqb_neq in E. auto.
Qed.
Theorem c40_bracketed_matches_by_prefix : forall annotation name comment,
  has_bracket name ->
  (fst (attributeHasAnnotation annotation name comment) = true
   <-> exists rest, annotation = name ++ rest).
Proof. intros. rewrite aha_bracket by auto. apply prefixb_spec. Qed.
Theorem c40_comment_between_brackets : forall name rest comment,
  has_bracket name ->
  (forall body, bracket_comment rest body ->
     attributeHasAnnotation (name ++ rest) name comment = (true, body))
  /\ ((forall body, ~ bracket_comment rest body) ->
     attributeHasAnnotation (name ++ rest) name comment = (true, comment)).
Proof. intros. split; intros; [now apply aha_comment_body | now apply aha_comment_none]. Qed.
Example c40_case :
  map (fun a => attributeHasAnnotation a $"oclint:enforce[x]" $"?")
    [$"oclint:enforce[x][why [not]]"; $"oclint:enforce[x]"; $"oclint:enforce[y]"; $"oclint:enforce[x][a]b"]
  = [(true, $"why [not]"); (true, $"?"); (false, $"?"); (true, $"?")].
Proof. reflexivity. Qed.

(** ** C41 *)
Theorem c41_suppression_is_per_rule : forall d r,
  markedAsSuppress d (Some r) = true <-> suppresses d r.
Proof. apply marked_iff. Qed.
(** An annotation naming [q] (of names without closing bracket) concerns no other rule. *)
Theorem c41_named_rule_only : forall q r rest,
  ~ In "]"%char q -> ~ In "]"%char r ->
  (hides_rule r [$"oclint:suppress[" ++ q ++ $"]" ++ rest] <-> q = r).
Proof.
  intros q r rest Hq Hr. unfold hides_rule. split.
  - intros (rest' & [E|[]]). apply app_inv_head in E.
    revert r Hr E. induction q as [|c q IH]; intros [|x r] Hr E; auto.
    + inversion E; subst. destruct Hr; simpl; auto.
    + inversion E; subst. destruct Hq; simpl; auto.
    + inversion E; subst. f_equal. apply IH; auto.
      * intros H. apply Hq. simpl; auto.
      * intros H. apply Hr. simpl; auto.
  - intros ->. exists rest. simpl; auto.
Qed.
Theorem c41_no_rule_no_suppression : forall d, markedAsSuppress d None = false.
Proof. reflexivity. Qed.
Example c41_case :
  suppresses (Decl [$"other"] (Some (Method false None (InOther (Some
     (Category None (Category (Some (Decl [$"oclint:suppress[x][y]"] (Some (Method false None InCategory))))
       NoCategory))))))) $"x"
  /\ ~ suppresses (Decl [$"oclint:suppress[y]"; $"oclint:suppressed"] None) $"x".
Proof.
  split.
  - right. exists [$"oclint:suppress[x][y]"]. split.
    + apply co_category. apply ci_later, ci_here, co_own.
    + exists $"[y]". left. reflexivity.
  - intros [[H|[H|[]]]|(l & H & rest & K)]; try discriminate.
    inversion H; subst. destruct K as [K|[K|[]]]; vm_compute in K; discriminate.
Qed.

(** ** C42 *)
Theorem c42_decl_hidden_iff : forall d p r,
  shouldSuppress_decl d p (Some r) = true
  <-> suppresses d r \/ exists d', on_chain p d' /\ suppresses d' r.
Proof. intros. unfold shouldSuppress_decl. now rewrite orb_true_iff, marked_iff, parents_iff. Qed.
Theorem c42_stmt_hidden_iff : forall p r,
  shouldSuppress_stmt p (Some r) = true <-> exists d', on_chain p d' /\ suppresses d' r.
Proof. intros. apply parents_iff. Qed.
(** Through declarations and statements only, every enclosing declaration is on the chain. *)
Fixpoint no_other (p : parents) : Prop :=
  match p with NoParent => True | Parents n up _ => n <> POther /\ no_other up end.
Theorem c42_enclosing_is_on_chain : forall p d, no_other p -> (encloses p d <-> on_chain p d).
Proof.
  induction p as [|n up IH others]; intros d H; split; intros K.
  - inversion K.
  - inversion K.
  - destruct H as [Hn Hu]. inversion K; subst; [constructor|].
    assert (on_chain up d) by (apply IH; auto). destruct n; [now constructor|now constructor|congruence].
  - destruct H as [Hn Hu]. inversion K; subst; [constructor| |]; apply en_up, IH; auto.
Qed.
(** Finding: an enclosing annotated declaration does not hide a node when another kind of
    node, e.g. a constructor initialiser, lies between. *)
Theorem c42_every_enclosing_declaration_hides_refuted : exists p d r,
  encloses p d /\ suppresses d r /\ shouldSuppress_stmt p (Some r) = false.
Proof.
  exists (Parents PStmt (Parents POther (Parents (PDecl (Decl [$"oclint:suppress"] None)) NoParent []) []) []).
  exists (Decl [$"oclint:suppress"] None), $"x". split; [|split].
  - apply en_up, en_up, en_here.
  - left. left. reflexivity.
  - reflexivity.
Qed.
Example c42_case : exists d',
  on_chain (Parents PStmt (Parents (PDecl (Decl [] None)) (Parents (PDecl (Decl [$"oclint:suppress[x]"] None))
    NoParent []) [PStmt]) []) d' /\ suppresses d' $"x".
Proof.
  eexists. split; [apply oc_stmt, oc_decl, oc_here|].
  right. eexists. split; [constructor|]. exists []. left. reflexivity.
Qed.

(** ** C43 *)
(** Without a rule: a line is suppressed iff the file has a comment there, as seen by the
    first question about the file. *)
Theorem c43_comment_hides_its_line : forall hist q q0,
  q_rule q = None ->
  first_such (same_file (q_unit q)) (hist ++ [q]) q0 ->
  (answer hist q = true <-> comment_on (q_unit q0) (q_line q)).
Proof.
  intros hist q q0 Hr F. destruct (answer_iff hist q) as (x & Fx & ->).
  rewrite (first_such_det _ _ _ _ F Fx). rewrite Hr. split; auto.
  intros [H|(q1 & r1 & _ & _ & H & _)]; auto. congruence.
Qed.
(** A violation of a syntax-tree rule is recorded unless its line -- of whatever file --
    has the number of a commented line of the main file, or its file is unknown. *)
Theorem c43_recorded_unless_commented : forall hist u l rule message vs,
  (forall q, In q hist -> same_file u q -> u_comments (q_unit q) = u_comments u) ->
  (comment_on u (l_line l) \/ l_path l = [] ->
     fst (addViolation_loc u l rule message vs (ask_all hist sc_fresh)) = vs)
  /\ (~ comment_on u (l_line l) -> l_path l <> [] ->
     fst (addViolation_loc u l rule message vs (ask_all hist sc_fresh))
     = vs ++ [{| v_rule := Some rule; v_path := l_path l; v_startLine := l_line l;
                 v_startColumn := l_column l; v_endLine := l_endLine l; v_endColumn := l_endColumn l;
                 v_message := message |}]).
Proof.
  intros hist u l rule message vs Hh.
  set (q := {| q_line := l_line l; q_unit := u; q_rule := None |}).
  destruct (answer_iff hist q) as (q0 & F & _).
  pose proof (c43_comment_hides_its_line hist q q0 eq_refl F) as A.
  assert (C : comment_on (q_unit q0) (l_line l) <-> comment_on u (l_line l)).
  { unfold comment_on. destruct F as (a & b & E & S & _).
    assert (I : In q0 (hist ++ [q])) by (rewrite E; apply in_or_app; simpl; auto).
    apply in_app_or in I as [I|[<-|[]]]; [|reflexivity]. now rewrite (Hh q0 I S). }
  rewrite <- C. clear C F. unfold answer in A. simpl in A. unfold addViolation_loc.
  destruct (shouldSuppress_line (l_line l) u None (ask_all hist sc_fresh)) as [b sc'].
  simpl in A. rewrite <- A. unfold carrier_addViolation, vs_addViolation. split.
  - intros [Hb|Hp]; [now rewrite Hb|]. rewrite Hp. now destruct b.
  - intros Hb Hp. destruct b; [congruence|]. simpl.
    destruct (str_eqb (l_path l) []) eqn:E; [apply str_eqb_eq in E; congruence|reflexivity].
Qed.
Theorem c43_comment_concerns_its_own_file_only_refuted : exists u l rule message,
  l_path l <> u_path u /\ l_path l <> [] /\ fst (addViolation_loc u l rule message [] sc_fresh) = [].
Proof.
  exists exu, {| l_path := $"b.h"; l_line := 3; l_column := 1; l_endLine := 3; l_endColumn := 2 |}, 0, [].
  repeat split; try discriminate; reflexivity.
Qed.

Example c43_case : let at_ n := {| l_path := $"a.c"; l_line := n; l_column := 1; l_endLine := n; l_endColumn := 2 |} in
  comment_on exu 3 /\ map (fun n => length (fst (addViolation_loc exu (at_ n) 0 [] [] sc_fresh))) [2%Z; 3%Z; 4%Z] = [1; 0; 1].
Proof. split; [|vm_compute; reflexivity]. do 2 eexists. split; [reflexivity|]. split; [right; left; reflexivity|]. split; [reflexivity|]. exists [], $" ok". reflexivity. Qed.

(** ** C44 *)
(** The exact answer: comments as of the first question about the file; ranges as of the
    first question about it that was asked for a rule and not settled by a comment. *)
Theorem c44_first_asker_decides : forall hist q,
  exists q0, first_such (same_file (q_unit q)) (hist ++ [q]) q0
  /\ (answer hist q = true <->
      comment_on (q_unit q0) (q_line q)
      \/ exists q1 r1,
         first_such (fun x => same_file (q_unit q) x
                       /\ (exists r, q_rule x = Some r) /\ ~ comment_on (q_unit q0) (q_line x))
           (hist ++ [q]) q1
         /\ q_rule q1 = Some r1 /\ q_rule q <> None
         /\ in_suppressed_decl (q_unit q1) r1 (q_line q)).
Proof. apply answer_iff. Qed.

(** Right when everyone who asked agrees. *)
Theorem c44_right_when_rules_agree : forall hist q r,
  q_rule q = Some r ->
  (forall q', In q' hist -> same_file (q_unit q) q' -> u_comments (q_unit q') = u_comments (q_unit q)) ->
  (forall q' r', In q' hist -> same_file (q_unit q) q' -> q_rule q' = Some r' ->
     forall line, in_suppressed_decl (q_unit q') r' line <-> in_suppressed_decl (q_unit q) r line) ->
  (answer hist q = true
   <-> comment_on (q_unit q) (q_line q) \/ in_suppressed_decl (q_unit q) r (q_line q)).
Proof.
  intros hist q r Hr Hc Ha. destruct (answer_iff hist q) as (q0 & F & ->).
  assert (C : forall line, comment_on (q_unit q0) line <-> comment_on (q_unit q) line).
  { intros line. unfold comment_on. destruct F as (a & b & E & S & _).
    assert (I : In q0 (hist ++ [q])) by (rewrite E; apply in_or_app; simpl; auto).
    apply in_app_or in I as [I|[<-|[]]]; [|reflexivity]. now rewrite (Hc q0 I S). }
  assert (B : forall q1 r1, In q1 (hist ++ [q]) -> same_file (q_unit q) q1 -> q_rule q1 = Some r1 ->
     forall line, in_suppressed_decl (q_unit q1) r1 line <-> in_suppressed_decl (q_unit q) r line).
  { intros q1 r1 I S E line. apply in_app_or in I as [I|[<-|[]]]; [eauto|].
    rewrite Hr in E. inversion E. reflexivity. }
  split.
  - intros [H|(q1 & r1 & (a & b & E & [S _] & _) & E1 & _ & H)]; [left; now apply C|right].
    assert (I : In q1 (hist ++ [q])) by (rewrite E; apply in_or_app; simpl; auto).
    now apply (B q1 r1 I S E1).
  - intros [H|H]; [left; now apply C|].
    destruct (comment_on_dec (q_unit q0) (q_line q)) as [Y|N]; [now left|right].
    set (P := fun x => same_file (q_unit q) x /\ (exists r, q_rule x = Some r)
                       /\ ~ comment_on (q_unit q0) (q_line x)).
    assert (X : exists q1, first_such P (hist ++ [q]) q1).
    { assert (D : forall x, P x \/ ~ P x).
      { intros x. unfold P, same_file. destruct (str_eq_dec (u_path (q_unit x)) (u_path (q_unit q))); [|tauto].
        destruct (q_rule x) as [rx|] eqn:Ex; [|right; intros (_ & (z & Hz) & _); discriminate].
        destruct (comment_on_dec (q_unit q0) (q_line x)); [right; tauto|left]. eauto. }
      assert (Pq : P q) by (repeat split; eauto).
      clear -D Pq. induction hist as [|x hist IH]; simpl.
      - exists q, [], []. split; [reflexivity|split; [exact Pq|intros y []]].
      - destruct (D x) as [Px|Nx].
        + exists x, [], (hist ++ [q]). split; [reflexivity|split; [exact Px|intros y []]].
        + destruct IH as (q1 & a & b & E & Hp & Hn). exists q1, (x :: a), b. rewrite E.
          split; [reflexivity|split; [exact Hp|]]. intros y [<-|Hy]; auto. }
    destruct X as (q1 & F1). pose proof F1 as (a & b & E & (S & (r1 & E1) & _) & _).
    exists q1, r1. repeat split; auto; [congruence|].
    assert (I : In q1 (hist ++ [q])) by (rewrite E; apply in_or_app; simpl; auto).
    now apply (B q1 r1 I S E1).
Qed.

(** Findings: another rule's suppression hides, and a rule's own suppression is ignored. *)
Definition exq (r : str) : question := {| q_line := 1; q_unit := exu; q_rule := Some r |}.
Lemma ex_not_in r : r <> $"x" -> ~ In "]"%char r -> ~ in_suppressed_decl exu r 1.
Proof.
  intros Hr Hb (t & v & [<-|[]] & _ & _ & [<-|[]] & S & _). simpl in S.
  destruct S as [[H|[]]|(l & H & K)]; [discriminate|]. inversion H; subst.
  change $"oclint:suppress[x]" with ($"oclint:suppress[" ++ $"x" ++ $"]" ++ []) in K.
  apply c41_named_rule_only in K; auto. intros [H'|[]]; discriminate.
Qed.
Lemma ex_in : in_suppressed_decl exu $"x" 1.
Proof.
  do 2 eexists. split; [left; reflexivity|]. repeat split; [left; reflexivity| |simpl; lia|simpl; lia].
  right. eexists. split; [constructor|]. exists []. left. reflexivity.
Qed.
Lemma ex_no_comment : ~ comment_on exu 1.
Proof.
  intros (l & c & [= <-] & [H|[H|[]]] & L & _); [discriminate|]. injection H as <-. discriminate.
Qed.
Theorem c44_no_leak_between_rules_refuted : exists hist q r,
  q_rule q = Some r /\ answer hist q = true
  /\ ~ comment_on (q_unit q) (q_line q) /\ ~ in_suppressed_decl (q_unit q) r (q_line q).
Proof.
  exists [exq $"x"], (exq $"long line"), $"long line". repeat split.
  - apply ex_no_comment.
  - apply ex_not_in; [discriminate|]. intros H. vm_compute in H.
    repeat (destruct H as [H|H]; [discriminate|]). exact H.
Qed.
Theorem c44_own_suppression_honoured_refuted : exists hist q r,
  q_rule q = Some r /\ answer hist q = false /\ in_suppressed_decl (q_unit q) r (q_line q).
Proof.
  exists [exq $"long line"], (exq $"x"), $"x". repeat split. apply ex_in.
Qed.
Example c44_case : answer [exq $"x"; exq $"x"] (exq $"x") = true.
Proof. reflexivity. Qed.

(** ** C45, C46 *)
Lemma flag_bit f set k : f = N.shiftl 1 k -> flag f set = N.testbit set k.
Proof.
  intros ->. unfold flag. destruct (N.testbit set k) eqn:E.
  - apply negb_true_iff, N.eqb_neq. intros H. apply (f_equal (fun x => N.testbit x k)) in H.
    rewrite N.land_spec, N.shiftl_spec_high', N.sub_diag, E, N.bits_0 in H by lia. discriminate.
  - apply negb_false_iff, N.eqb_eq. apply N.bits_inj. intros i. rewrite N.land_spec, N.bits_0.
    destruct (N.eq_dec i k) as [->|Hi]; [now rewrite E, andb_false_r|].
    destruct (N.lt_ge_cases i k) as [L|L].
    + now rewrite N.shiftl_spec_low.
    + rewrite N.shiftl_spec_high' by auto.
      replace (N.testbit 1 (i - k)) with false; auto.
      destruct (i - k)%N eqn:D; [lia|reflexivity].
Qed.
Lemma lang_iff lo s : isLanguageSupported lo s = true <-> exists l, language_of lo l /\ supports s l.
Proof.
  unfold isLanguageSupported, supports.
  rewrite (flag_bit LANG_OBJC s 2), (flag_bit LANG_CXX s 1), (flag_bit LANG_C s 0) by reflexivity.
  destruct (lo_objc lo) eqn:E1; [|destruct (lo_cxx lo) eqn:E2; [|destruct (lo_c99 lo) eqn:E3]].
  - split; [intros H; exists ObjC; simpl; auto|].
    intros ([| |] & L & H); simpl in L; auto; destruct L; congruence.
  - split; [intros H; exists Cxx; simpl; auto|].
    intros ([| |] & L & H); simpl in L; auto; try congruence. destruct L as (_ & L & _); congruence.
  - split; [intros H; exists C; simpl; auto|].
    intros ([| |] & L & H); simpl in L; auto; try congruence. destruct L; congruence.
  - split; [discriminate|].
    intros ([| |] & L & H); simpl in L; try congruence. destruct L; congruence.
    destruct L as (_ & _ & L); congruence.
Qed.
Lemma valid_iff t : isValidDecl t = true <-> in_main t.
Proof. unfold isValidDecl, in_main. apply andb_true_iff. Qed.
Lemma flat_map_filter {A B} (f : A -> bool) (g : A -> B) l :
  flat_map (fun x => if f x then [g x] else []) l = map g (filter f l).
Proof. induction l as [|x l IH]; simpl; auto. destruct (f x); simpl; now rewrite IH. Qed.

(** Outside CUDA units: a rule that supports the language (and host code) inspects exactly
    the main file's declarations in order; any other rule does nothing, not even set up. *)
Theorem c45_language_gating : forall lo supported attrs decls,
  lo_cuda lo = false ->
  ((exists l, language_of lo l /\ supports supported l) /\ supports_host attrs ->
     exists sel, sublist_where in_main decls sel
       /\ applyVisitor lo supported attrs decls = inspects sel)
  /\ (~ ((exists l, language_of lo l /\ supports supported l) /\ supports_host attrs) ->
     applyVisitor lo supported attrs decls = []).
Proof.
  intros lo supported attrs decls Hc. unfold applyVisitor, applyC. rewrite Hc.
  rewrite (flag_bit CUDA_HOST attrs 0) by reflexivity.
  pose proof (lang_iff lo supported) as L. unfold supports_host. split.
  - intros [H1 H2]. apply L in H1. rewrite H1, H2. simpl orb. cbv iota.
    exists (filter isValidDecl decls). split; [apply filter_sublist_where, valid_iff|].
    now rewrite flat_map_filter.
  - intros H. destruct (isLanguageSupported lo supported) eqn:E1; [|reflexivity].
    destruct (N.testbit attrs 0) eqn:E2; [|reflexivity]. exfalso. apply H. split; auto. now apply L.
Qed.
(** The language is unique. *)
Theorem c45_language_unique : forall lo l1 l2, language_of lo l1 -> language_of lo l2 -> l1 = l2.
Proof.
  intros lo [| |] [| |]; simpl; auto; intros; exfalso;
    repeat match goal with H : _ /\ _ |- _ => destruct H end; congruence.
Qed.

Definition relevantb (attrs : N) (t : top) : bool :=
  isValidDecl t && match t_kind t with
                   | TFunction true => N.testbit attrs 1
                   | TFunction false => N.testbit attrs 0
                   | TOther => true
                   end.
(** CUDA units: exactly the relevant declarations of the main file, in order, whatever the
    languages supported. *)
Theorem c46_cuda_units : forall lo supported attrs decls,
  lo_cuda lo = true ->
  exists sel, sublist_where (cuda_relevant attrs) decls sel
    /\ applyVisitor lo supported attrs decls = inspects sel.
Proof.
  intros lo supported attrs decls Hc. unfold applyVisitor, applyCUDA. rewrite Hc.
  exists (filter (relevantb attrs) decls). split.
  - apply filter_sublist_where. intros t. unfold relevantb, cuda_relevant, supports_kernels, supports_host.
    rewrite andb_true_iff, valid_iff. destruct (t_kind t) as [[|]|]; tauto.
  - unfold inspects. cbn [app]. f_equal. f_equal. rewrite <- flat_map_filter.
    apply flat_map_ext. intros t. unfold applyCUDADecl, relevantb.
    rewrite (flag_bit CUDA_GLOBAL attrs 1), (flag_bit CUDA_HOST attrs 0) by reflexivity.
    destruct (isValidDecl t); [|reflexivity]. destruct (t_kind t) as [[|]|]; reflexivity.
Qed.
(** In every unit, only declarations of the main file are traversed, each at most once and
    in order. *)
Theorem c46_only_main_file : forall lo supported attrs decls id,
  In (Traverse id) (applyVisitor lo supported attrs decls) ->
  exists t, In t decls /\ t_id t = id /\ in_main t.
Proof.
  intros lo supported attrs decls id H.
  assert (X : forall f sel, filter f decls = sel -> (forall t, f t = true -> in_main t) ->
    In (Traverse id) (inspects sel) -> exists t, In t decls /\ t_id t = id /\ in_main t).
  { intros f sel <- Hf K. unfold inspects in K. simpl in K. destruct K as [K|K]; [discriminate|].
    apply in_app_or in K as [K|[K|[]]]; [|discriminate].
    apply in_map_iff in K as (t & [= <-] & Ht). apply filter_In in Ht as [H1 H2]. eauto. }
  unfold applyVisitor in H. destruct (lo_cuda lo).
  - apply (X (relevantb attrs) _ eq_refl).
    + intros t Ht. apply andb_true_iff in Ht as [Ht _]. now apply valid_iff.
    + unfold applyCUDA in H. unfold inspects. cbn [app]. rewrite <- flat_map_filter.
      erewrite flat_map_ext; [exact H|]. intros t. unfold applyCUDADecl, relevantb.
      rewrite (flag_bit CUDA_GLOBAL attrs 1), (flag_bit CUDA_HOST attrs 0) by reflexivity.
      destruct (isValidDecl t); [|reflexivity]. destruct (t_kind t) as [[|]|]; reflexivity.
  - unfold applyC in H. destruct (_ || _); [destruct H|].
    apply (X isValidDecl _ eq_refl); [intros t; apply valid_iff|].
    unfold inspects. cbn [app]. now rewrite <- flat_map_filter.
Qed.
Example c45_c46_case :
  let t i k m := {| t_id := i; t_validLoc := true; t_inMainFile := m; t_kind := k |} in
  let ds := [t 1 (TFunction true) true; t 2 (TFunction false) true; t 3 TOther true; t 4 TOther false] in
  let lo c := {| lo_objc := false; lo_cxx := true; lo_c99 := true; lo_cuda := c |} in
  map (fun x => applyVisitor (lo (fst x)) 2 (snd x) ds) [(false, 1%N); (true, 1%N); (true, 2%N); (true, 3%N)]
  = [[SetUp; Traverse 1; Traverse 2; Traverse 3; TearDown]; [SetUp; Traverse 2; Traverse 3; TearDown];
     [SetUp; Traverse 1; Traverse 3; TearDown]; [SetUp; Traverse 1; Traverse 2; Traverse 3; TearDown]]
  /\ applyVisitor (lo false) 5 1 ds = [].
Proof. split; reflexivity. Qed.

Print Assumptions c38_lines_complete_and_numbered.
Print Assumptions c39_long_lines_exactly.
Print Assumptions c40_comment_between_brackets.
Print Assumptions c41_suppression_is_per_rule.
Print Assumptions c42_decl_hidden_iff.
Print Assumptions c43_recorded_unless_commented.
Print Assumptions c44_first_asker_decides.
Print Assumptions c44_right_when_rules_agree.
Print Assumptions c45_language_gating.
Print Assumptions c46_cuda_units.
Print Assumptions c46_only_main_file.
