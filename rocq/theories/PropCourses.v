(** * Property C140: what NPath complexity says about the courses of execution *)
From Verif Require Import Base BaseFacts ModelAST SpecFilter SpecAST ProofAST PropAST SpecCourses ProofCourses.
Local Arguments lit : simpl never.

(** Where conditions are single tests, switches have a default and do not fall through, and the
    code has none of the statements NPath does not look into, the number is never less than the
    number of courses, jumps and loops of all kinds included. *)
Theorem c140_never_fewer_than_courses : forall n v, countable n -> nPath n = Val v ->
  exists k, count n k /\ (Z.of_nat k <= v)%Z.
Proof.
  intros n v C E. assert (v = npZ n) by (apply paths_npZ; now apply c48_follows_recurrences). subst v.
  destruct (countable_bound n C) as (_ & l & (N & K) & L). exists (length l). split; auto.
  exists l. auto.
Qed.
Print Assumptions c140_never_fewer_than_courses.
(** Without early jumps and other loops than [while] it is exactly that number. *)
Theorem c140_counts_courses : forall n v, structured n -> nPath n = Val v ->
  exists k, count n k /\ v = Z.of_nat k.
Proof.
  intros n v C E. assert (v = npZ n) by (apply paths_npZ; now apply c48_follows_recurrences). subst v.
  destruct (structured_exact n C) as (_ & l & (N & K) & L). exists (length l). split; auto.
  exists l. auto.
Qed.
Print Assumptions c140_counts_courses.
(** There is one such number. *)
Theorem c140_count_is_unique : forall n k k', count n k -> count n k' -> k = k'.
Proof.
  intros n k k' (l & N & K & <-) (l' & N' & K' & <-).
  apply Nat.le_antisymm; apply NoDup_incl_length; auto; intros (p, o) H.
  - apply K', K, H.
  - apply K, K', H.
Qed.
Print Assumptions c140_count_is_unique.
(** The decisions made identify the course. *)
Theorem c140_decisions_identify_course : forall n p o p' o' r r',
  course n p o -> course n p' o' -> p ++ r = p' ++ r' -> p = p' /\ o = o'.
Proof. intros n p o p' o' r r' C C' E. exact (course_free n p o C p' o' r r' C' E). Qed.
Print Assumptions c140_decisions_identify_course.

(** ** Where it does not hold *)
Lemma wit (n : node) (ps : list (list decision * option jump)) :
  NoDup ps -> (forall p o, In (p, o) ps -> course n p o) ->
  forall k, count n k -> length ps <= k.
Proof.
  intros N H k (l & _ & K & <-). apply NoDup_incl_length; auto. intros (p, o) Hp. apply K, H, Hp.
Qed.
Ltac plainly := apply te_one; exact Logic.I.
Ltac distinct := repeat constructor; cbn; intuition discriminate.

Definition ex_if (k : nat) : node := nd k (IfStmt [] (var (k + 1)) (nd (k + 2) NullStmt) None).
Lemma ex_if_course k b : course (ex_if k) [Tested (var (k + 1)) b] None.
Proof.
  destruct b.
  - apply (co_then (ex_if k) [] (var (k + 1)) (nd (k + 2) NullStmt) None [Tested (var (k + 1)) true] [] None eq_refl); [plainly|].
    exact (co_undivided (nd (k + 2) NullStmt) Logic.I).
  - apply (co_no_else (ex_if k) [] (var (k + 1)) (nd (k + 2) NullStmt) _ eq_refl). plainly.
Qed.

(** Finding: a test behind [||] opens more courses than the one it is counted for:
    [if (a || b) if (c) ;] *)
Definition ex_or : node :=
  nd 1 (IfStmt [] (nd 2 (BinaryOperator BO_LOr (var 3) (var 4)))
     (ex_if 5) None).
Definition ex_or_courses : list (list decision * option jump) :=
  [([Tested (var 3) true; Tested (var 6) true], None);
   ([Tested (var 3) true; Tested (var 6) false], None);
   ([Tested (var 3) false; Tested (var 4) true; Tested (var 6) true], None);
   ([Tested (var 3) false; Tested (var 4) true; Tested (var 6) false], None);
   ([Tested (var 3) false; Tested (var 4) false], None)].
Theorem c140_alternatives_refuted : exists n v, nPath n = Val v
  /\ forall k, count n k -> (v < Z.of_nat k)%Z.
Proof.
  exists ex_or, 4%Z. split; [reflexivity|]. intros k K.
  enough (length ex_or_courses <= k) by (cbn in *; lia). revert k K. apply wit; [distinct|].
  assert (O1 : tests (nd 2 (BinaryOperator BO_LOr (var 3) (var 4))) true [Tested (var 3) true])
    by (eapply te_or_true; [reflexivity|plainly]).
  assert (O2 : forall b, tests (nd 2 (BinaryOperator BO_LOr (var 3) (var 4))) b [Tested (var 3) false; Tested (var 4) b]).
  { intros b. apply (te_or_false (nd 2 (BinaryOperator BO_LOr (var 3) (var 4))) (var 3) (var 4) b [Tested (var 3) false] [Tested (var 4) b] eq_refl); plainly. }
  intros p o [E|[E|[E|[E|[E|[]]]]]]; injection E as <- <-.
  - apply (co_then ex_or _ _ _ _ [Tested (var 3) true] _ _ eq_refl O1 (ex_if_course 5 true)).
  - apply (co_then ex_or _ _ _ _ [Tested (var 3) true] _ _ eq_refl O1 (ex_if_course 5 false)).
  - apply (co_then ex_or _ _ _ _ _ _ _ eq_refl (O2 true) (ex_if_course 5 true)).
  - apply (co_then ex_or _ _ _ _ _ _ _ eq_refl (O2 true) (ex_if_course 5 false)).
  - apply (co_no_else ex_or _ _ _ _ eq_refl (O2 false)).
Qed.
Print Assumptions c140_alternatives_refuted.

(** Finding: operators behind a negation are not counted at all: [if (!(a && b)) ;] *)
Definition ex_not : node :=
  nd 1 (IfStmt [] (nd 2 (UnaryOperator UO_LNot (nd 3 (ParenExpr (nd 4 (BinaryOperator BO_LAnd (var 5) (var 6)))))))
     (nd 7 NullStmt) None).
Theorem c140_negation_refuted : exists n v, nPath n = Val v
  /\ forall k, count n k -> (v < Z.of_nat k)%Z.
Proof.
  exists ex_not, 2%Z. split; [reflexivity|]. intros k K.
  pose (cs := [([Tested (var 5) false], None); ([Tested (var 5) true; Tested (var 6) false], None);
               ([Tested (var 5) true; Tested (var 6) true], None)] : list (list decision * option jump)).
  enough (length cs <= k) by (cbn in *; lia). revert k K. apply wit; [distinct|].
  assert (W : forall b p, tests (nd 4 (BinaryOperator BO_LAnd (var 5) (var 6))) b p ->
     tests (nd 2 (UnaryOperator UO_LNot (nd 3 (ParenExpr (nd 4 (BinaryOperator BO_LAnd (var 5) (var 6))))))) (negb b) p).
  { intros b p T. eapply te_not; [reflexivity|]. eapply te_wrap; [reflexivity|exact T]. }
  assert (A1 : tests (nd 4 (BinaryOperator BO_LAnd (var 5) (var 6))) false [Tested (var 5) false])
    by (eapply te_and_false; [reflexivity|plainly]).
  assert (A2 : forall b, tests (nd 4 (BinaryOperator BO_LAnd (var 5) (var 6))) b [Tested (var 5) true; Tested (var 6) b]).
  { intros b. apply (te_and_true (nd 4 (BinaryOperator BO_LAnd (var 5) (var 6))) (var 5) (var 6) b [Tested (var 5) true] [Tested (var 6) b] eq_refl); plainly. }
  pose proof (co_undivided (nd 7 NullStmt) Logic.I) as Z.
  intros p o [E|[E|[E|[]]]]; injection E as <- <-.
  - apply (co_then ex_not _ _ _ _ [Tested (var 5) false] [] _ eq_refl (W _ _ A1) Z).
  - apply (co_then ex_not _ _ _ _ [Tested (var 5) true; Tested (var 6) false] [] _ eq_refl (W _ _ (A2 false)) Z).
  - apply (co_no_else ex_not _ _ _ _ eq_refl (W _ _ (A2 true))).
Qed.
Print Assumptions c140_negation_refuted.

(** Finding: falling through is not followed: [switch (a) { case a: if (b) ; default: if (c) ; }] *)
Definition ex_fall_body : list node :=
  [nd 4 (CaseStmt (var 5) (ex_if 10)); nd 6 (DefaultStmt (ex_if 20))].
Definition ex_fall : node := nd 1 (SwitchStmt [] (var 2) (nd 3 (CompoundStmt ex_fall_body)) false).
Theorem c140_fall_through_refuted : exists n v, nPath n = Val v
  /\ forall k, count n k -> (v < Z.of_nat k)%Z.
Proof.
  exists ex_fall, 4%Z. split; [reflexivity|]. intros k K.
  pose (t b := Tested (var 11) b). pose (u b := Tested (var 21) b).
  pose (cs := [([Entered ex_fall 0; t true; u true], None); ([Entered ex_fall 0; t true; u false], None);
               ([Entered ex_fall 0; t false; u true], None); ([Entered ex_fall 0; t false; u false], None);
               ([Entered ex_fall 1; u true], None); ([Entered ex_fall 1; u false], None)]
             : list (list decision * option jump)).
  enough (length cs <= k) by (cbn in *; lia). revert k K. apply wit; [distinct|].
  assert (D : forall b, courses [nd 6 (DefaultStmt (ex_if 20))] [u b] None).
  { intros b. apply (cs_on _ [] [u b] [] None); [|constructor].
    eapply co_default; [reflexivity|]. apply (ex_if_course 20). }
  assert (B : forall a b, courses ex_fall_body [t a; u b] None).
  { intros a b. apply (cs_on _ _ [t a] [u b] None); [|apply D].
    eapply co_case; [reflexivity|]. apply (ex_if_course 10). }
  assert (E0 : forall a b, course ex_fall [Entered ex_fall 0; t a; u b] None).
  { intros a b. apply (co_enter ex_fall [] (var 2) _ false ex_fall_body [] _ _ [t a; u b] None eq_refl eq_refl eq_refl);
      [left; do 2 eexists; reflexivity|apply B]. }
  assert (E1 : forall b, course ex_fall [Entered ex_fall 1; u b] None).
  { intros b. apply (co_enter ex_fall [] (var 2) _ false ex_fall_body [nd 4 (CaseStmt (var 5) (ex_if 10))] _ _ [u b] None
      eq_refl eq_refl eq_refl); [right; eexists; reflexivity|apply D]. }
  intros p o [E|[E|[E|[E|[E|[E|[]]]]]]]; injection E as <- <-; auto.
Qed.
Print Assumptions c140_fall_through_refuted.

(** Finding: what a range-based for loop contains is not counted. *)
Theorem c140_range_for_refuted : exists n v, nPath n = Val v
  /\ forall k, count n k -> (v < Z.of_nat k)%Z.
Proof.
  pose (n := nd 1 (CXXForRangeStmt None (var 2) (var 3) (nd 4 NullStmt))).
  exists n, 1%Z. split; [reflexivity|]. intros k K.
  pose (cs := [([Tested n true], None); ([Tested n false], None)] : list (list decision * option jump)).
  enough (length cs <= k) by (cbn in *; lia). revert k K. apply wit; [distinct|].
  intros p o [E|[E|[]]]; injection E as <- <-.
  - apply (co_each n (nd 4 NullStmt) [] None eq_refl). exact (co_undivided (nd 4 NullStmt) Logic.I).
  - apply (co_none n (nd 4 NullStmt) eq_refl).
Qed.
Print Assumptions c140_range_for_refuted.

(** Finding: a [for] loop is counted for one course more than the [while] loop with the same
    condition and body, though both have the same number. *)
Theorem c140_for_counts_one_more : forall i t pre j u pre' c inc b v w, plain c ->
  nPath_optexpr inc = Val 0%Z ->
  nPath (Node i t (WhileStmt pre c b)) = Val v ->
  nPath (Node j u (ForStmt None pre' (Some c) inc b)) = Val w ->
  w = (v + 1)%Z
  /\ forall k, count (Node i t (WhileStmt pre c b)) k -> count (Node j u (ForStmt None pre' (Some c) inc b)) k.
Proof.
  intros i t pre j u pre' c inc b v w P I V W. split.
  - assert (v = npZ (Node i t (WhileStmt pre c b))) by (apply paths_npZ; now apply c48_follows_recurrences).
    assert (w = npZ (Node j u (ForStmt None pre' (Some c) inc b))) by (apply paths_npZ; now apply c48_follows_recurrences).
    subst. cbn [npZ]. assert (oexZ inc = 0%Z).
    { destruct inc as [x|]; [|reflexivity]. cbn in *. symmetry. now apply nPath_expr_val. }
    cbn [oexZ]. lia.
  - intros k (l & N & K & L). exists l. split; auto. split; auto. intros p o. rewrite K. clear.
    split; intros C; inversion C; subst; shapes; repeat step;
      first [eapply co_skip; [split; reflexivity|assumption]
            |eapply co_once; [split; reflexivity|eassumption|eassumption]|discriminate|idtac].
    all: cbn in *; repeat step; try contradiction;
      first [eapply co_skip; [split; reflexivity|assumption]
            |eapply co_once; [split; reflexivity|eassumption|eassumption]].
Qed.
Print Assumptions c140_for_counts_one_more.

(** Finding: early returns make it count courses that do not exist:
    [{ if (a) return; if (b) return; }] *)
Definition ex_ret (k : nat) : node := nd k (IfStmt [] (var (k + 1)) (nd (k + 2) (ReturnStmt None)) None).
Definition ex_returns : node := nd 1 (CompoundStmt [ex_ret 10; ex_ret 20]).
Example ex_returns_countable : countable ex_returns.
Proof.
  eapply cn_block; [reflexivity|]. intros x [<-|[<-|[]]];
    (eapply cn_if; [reflexivity|apply pl_one; exact Logic.I|apply cn_undivided; exact Logic.I|discriminate]).
Qed.
Theorem c140_early_return_refuted : exists n v k, countable n /\ nPath n = Val v /\ count n k
  /\ (Z.of_nat k < v)%Z.
Proof.
  exists ex_returns, 4%Z, 3. split; [apply ex_returns_countable|]. split; [reflexivity|]. split; [|lia].
  exists [([Tested (var 11) true], Some JLeave); ([Tested (var 11) false; Tested (var 21) true], Some JLeave);
          ([Tested (var 11) false; Tested (var 21) false], None)].
  split; [distinct|]. split; [|reflexivity].
  assert (R : forall k p o, course (ex_ret k) p o <->
     (p = [Tested (var (k + 1)) true] /\ o = Some JLeave) \/ (p = [Tested (var (k + 1)) false] /\ o = None)).
  { intros k p o. split.
    - intros C; inversion C; subst; cbn in *; try contradiction; try discriminate;
        match goal with H : IfStmt _ _ _ _ = _ |- _ => injection H; clear H; intros; subst end;
        match goal with T : tests _ _ _ |- _ => inversion T; subst; cbn in *; try contradiction; try discriminate end; auto.
      match goal with D : course _ _ _ |- context [?o] => inversion D; subst; cbn in *; try contradiction; try discriminate end.
      auto.
    - intros [(-> & ->)|(-> & ->)].
      + apply (co_then (ex_ret k) _ _ _ _ [Tested (var (k + 1)) true] [] (Some JLeave) eq_refl); [plainly|].
        exact (co_undivided (nd (k + 2) (ReturnStmt None)) Logic.I).
      + apply (co_no_else (ex_ret k) _ _ _ _ eq_refl). plainly. }
  intros p o. split.
  - intros [E|[E|[E|[]]]]; injection E as <- <-; (eapply co_block; [reflexivity|]).
    + apply cs_away. apply R. auto.
    + apply (cs_on _ _ [Tested (var 11) false] [Tested (var 21) true]); [apply R; auto|].
      apply cs_away. apply R. auto.
    + apply (cs_on _ _ [Tested (var 11) false] [Tested (var 21) false]); [apply R; auto|].
      apply (cs_on _ _ [Tested (var 21) false] []); [apply R; auto|constructor].
  - intros C; inversion C; subst; cbn in *; try contradiction; try discriminate.
    match goal with H : CompoundStmt _ = _ |- _ => injection H as <- end.
    match goal with H : courses _ _ _ |- _ => inversion H; subst; clear H end;
      match goal with H : course (ex_ret 10) _ _ |- _ => apply R in H; destruct H as [(? & ?)|(? & ?)]; subst end;
      try discriminate.
    + match goal with H : courses _ _ _ |- _ => inversion H; subst; clear H end;
        match goal with H : course (ex_ret 20) _ _ |- _ => apply R in H; destruct H as [(? & ?)|(? & ?)]; subst end;
        try discriminate.
      * match goal with H : courses [] _ _ |- _ => inversion H; subst; clear H end. cbn. auto.
      * match goal with H : Some _ = Some _ |- _ => injection H as -> end. cbn. auto.
    + match goal with H : Some _ = Some _ |- _ => injection H as -> end. cbn. auto.
Qed.
Print Assumptions c140_early_return_refuted.

(** The hypotheses of the exact count are met, by
    [{ while (a) if (b) ; else ; switch (c) { case d: if (e) ; break; default: x; } }]. *)
Definition ex_structured : node :=
  nd 1 (CompoundStmt [
    nd 2 (WhileStmt [] (var 3) (nd 4 (IfStmt [] (var 5) (nd 6 NullStmt) (Some (nd 7 NullStmt)))));
    nd 30 (SwitchStmt [] (var 31) (nd 32 (CompoundStmt
      [nd 33 (CaseStmt (var 34) (ex_if 40)); nd 35 BreakStmt; nd 36 (DefaultStmt (var 37))])) false)]).
Example ex_structured_ok : structured ex_structured /\ nPath ex_structured = Val 9%Z.
Proof.
  split; [|reflexivity]. assert (PV : forall k, plain (var k)) by (intros; apply pl_one; exact Logic.I).
  assert (N : forall k, structured (nd k NullStmt)) by (intros; apply sd_undivided; [exact Logic.I|reflexivity]).
  eapply sd_block; [reflexivity|]. intros x [<-|[<-|[]]].
  - eapply sd_while; [reflexivity|auto|]. eapply sd_if; [reflexivity|auto|auto|].
    intros b E. injection E as <-. auto.
  - eapply (sd_switch _ [] (var 31) _ false _
      [[nd 33 (CaseStmt (var 34) (ex_if 40)); nd 35 BreakStmt]; [nd 36 (DefaultStmt (var 37))]]);
      [reflexivity|reflexivity|auto| | | | |].
    + split; [reflexivity|]. split; [intros ? []|]. intros g [<-|[<-|[]]]; eexists _, _; (split; [reflexivity|]).
      * split; [left; do 2 eexists; reflexivity|]. intros x [<-|[]] [(? & ? & E)|(? & E)]; discriminate E.
      * split; [right; eexists; reflexivity|]. intros x [].
    + eexists. split; [cbn; auto|]. eapply dl_default. reflexivity.
    + intros before g h after E. destruct before as [|b0 [|b1 before]]; cbn in E.
      * injection E as <- <- <-. exists [nd 33 (CaseStmt (var 34) (ex_if 40))], (nd 35 BreakStmt), (nd 35 BreakStmt).
        split; [reflexivity|]. split; [|reflexivity]. apply st_none. intros [(? & ? & E)|(? & E)]; discriminate E.
      * discriminate E.
      * destruct before; discriminate E.
    + intros g r x rest s [<-|[<-|[]]] E S B.
      * destruct r as [|r0 [|r1 r]]; cbn in E; injection E; clear E; intros; subst; auto.
        -- inversion S; subst; cbn in *; try discriminate. match goal with H : CaseStmt _ _ = _ |- _ => injection H as <- <- end.
           match goal with H : strips (ex_if 40) _ |- _ => inversion H; subst; cbn in *; discriminate end.
        -- destruct r; discriminate.
      * destruct r as [|r0 r]; cbn in E; injection E; clear E; intros; subst; auto. destruct r; discriminate.
    + intros x s [<-|[<-|[<-|[]]]] S B; inversion S; subst; cbn in *; try discriminate; try (exfalso; apply B; reflexivity).
      * match goal with H : ~ case_label _ |- _ => exfalso; apply H; left; do 2 eexists; reflexivity end.
      * match goal with H : CaseStmt _ _ = _ |- _ => injection H as <- <- end.
        match goal with H : strips (ex_if 40) _ |- _ => inversion H; subst; cbn in *; try discriminate end.
        eapply sd_if; [reflexivity|auto|auto|discriminate].
      * match goal with H : ~ case_label _ |- _ => exfalso; apply H; right; eexists; reflexivity end.
      * match goal with H : DefaultStmt _ = _ |- _ => injection H as <- end.
        match goal with H : strips (var 37) _ |- _ => inversion H; subst; cbn in *; try discriminate end.
        apply sd_undivided; [exact Logic.I|reflexivity].
Qed.
