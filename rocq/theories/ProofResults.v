(** * Proofs about result views *)
From Verif Require Import Base BaseFacts ModelResults SpecResults.

Lemma ptr_eqb_eq a b : ptr_eqb a b = true <-> a = b.
Proof.
  destruct a, b; simpl; split; intros H; try congruence.
  - apply Nat.eqb_eq in H. congruence.
  - inversion H. apply Nat.eqb_refl.
Qed.

Lemma violation_eqb_eq a b : violation_eqb a b = true <-> a = b.
Proof.
  unfold violation_eqb. rewrite !andb_true_iff, !Z.eqb_eq, !str_eqb_eq, ptr_eqb_eq.
  destruct a, b; simpl. split.
  - intros [[[[[[? ?] ?] ?] ?] ?] ?]; congruence.
  - intros H; inversion H; tauto.
Qed.

Lemma violation_eq_dec (a b : violation) : {a = b} + {a <> b}.
Proof.
  destruct (violation_eqb a b) eqn:E; [left; now apply violation_eqb_eq|].
  right. intros H. apply violation_eqb_eq in H. congruence.
Qed.

Lemma push_all_app acc s : push_all acc s = acc ++ s.
Proof.
  unfold push_all. revert acc; induction s as [|v s IH]; intros acc; simpl.
  - now rewrite app_nil_r.
  - rewrite IH, <- app_assoc. reflexivity.
Qed.

Lemma fold_push_all sets acc : fold_left push_all sets acc = acc ++ concat sets.
Proof.
  revert acc; induction sets as [|s sets IH]; intros acc; simpl.
  - now rewrite app_nil_r.
  - now rewrite IH, push_all_app, <- app_assoc.
Qed.

Lemma raw_allViolations_concat c : raw_allViolations c = concat (c_collection c).
Proof. unfold raw_allViolations. now rewrite fold_push_all. Qed.

(** The hash set contains exactly what was inserted, whatever the hash. *)
Lemma hs_contains_iff h s v :
  (forall e, In e s -> fst e = h (snd e)) ->
  hs_contains h s v = true <-> In v (map snd s).
Proof.
  intros Hwf. unfold hs_contains. rewrite existsb_exists, in_map_iff. split.
  - intros (e & Hin & H). apply andb_true_iff in H as [_ H].
    apply violation_eqb_eq in H. now exists e.
  - intros (e & <- & Hin). exists e. split; auto.
    rewrite (Hwf e Hin), Z.eqb_refl. simpl. now apply violation_eqb_eq.
Qed.

(** Pure first-occurrence filter, used only inside proofs. *)
Fixpoint firsts (l seen : list violation) : list violation :=
  match l with
  | [] => []
  | v :: l' => if in_dec violation_eq_dec v seen then firsts l' seen
               else v :: firsts l' (v :: seen)
  end.

Lemma dedup_loop_firsts h l set acc :
  (forall e, In e set -> fst e = h (snd e)) ->
  dedup_loop h l set acc = acc ++ firsts l (map snd set).
Proof.
  revert set acc; induction l as [|v l IH]; intros set acc Hwf; simpl.
  - now rewrite app_nil_r.
  - unfold hs_insert. destruct (hs_contains h set v) eqn:E; cbn [fst snd].
    + apply hs_contains_iff in E; auto.
      destruct (in_dec violation_eq_dec v (map snd set)); [|contradiction].
      now apply IH.
    + destruct (in_dec violation_eq_dec v (map snd set)) as [i|ni].
      * apply hs_contains_iff with (h := h) in i; auto. congruence.
      * rewrite IH.
        -- cbn [map snd]. rewrite <- app_assoc. reflexivity.
        -- intros e [<-|He]; auto.
Qed.

Lemma dedup_firsts h l : removeViolationDuplications h l = firsts l [].
Proof.
  unfold removeViolationDuplications. rewrite dedup_loop_firsts; [reflexivity|].
  intros e [].
Qed.

Lemma firsts_in l seen x : In x (firsts l seen) <-> In x l /\ ~ In x seen.
Proof.
  revert seen; induction l as [|v l IH]; intros seen; simpl; [tauto|].
  destruct (in_dec violation_eq_dec v seen) as [i|ni].
  - rewrite IH. split; [tauto|]. intros [[->|H] Hn]; [contradiction | tauto].
  - simpl. rewrite IH. simpl. split.
    + intros [->|[H Hn]]; tauto.
    + intros [[->|H] Hn]; [now left|].
      destruct (violation_eq_dec v x) as [->|Hne]; [now left | right; tauto].
Qed.

Lemma firsts_nodup l seen : NoDup (firsts l seen).
Proof.
  revert seen; induction l as [|v l IH]; intros seen; simpl; [constructor|].
  destruct (in_dec violation_eq_dec v seen); auto.
  constructor; auto. rewrite firsts_in. simpl. tauto.
Qed.

Lemma firsts_order l seen a x b y c :
  firsts l seen = a ++ x :: b ++ y :: c -> first_seen_before l x y.
Proof.
  revert seen a; induction l as [|v l IH]; intros seen a H.
  - exfalso. now apply (app_cons_not_nil a (b ++ y :: c) x).
  - cbn [firsts] in H. destruct (in_dec violation_eq_dec v seen) as [i|ni].
    + assert (Hx : In x (firsts l seen)) by (rewrite H; apply in_elt).
      assert (Hy : In y (firsts l seen))
        by (rewrite H, in_app_iff; right; right; apply in_elt).
      apply firsts_in in Hx as [_ Hx]. apply firsts_in in Hy as [_ Hy].
      destruct (IH seen a H) as (p & q & Hl & Hp1 & Hp2).
      exists (v :: p), q. rewrite Hl. repeat split; simpl; intros [->|]; auto.
    + destruct a as [|z a]; simpl in H; inversion H; subst.
      * exists [], l. auto.
      * assert (Hx : In x (firsts l (z :: seen))) by (rewrite H2; apply in_elt).
        assert (Hy : In y (firsts l (z :: seen)))
          by (rewrite H2, in_app_iff; right; right; apply in_elt).
        apply firsts_in in Hx as [_ Hx]. apply firsts_in in Hy as [_ Hy]. simpl in Hx, Hy.
        destruct (IH (z :: seen) a H2) as (p & q & Hl & Hp1 & Hp2).
        exists (z :: p), q. rewrite Hl. repeat split; simpl; intros [->|]; tauto.
Qed.

Lemma dedup_one_copy_each h l : one_copy_each l (removeViolationDuplications h l).
Proof.
  rewrite dedup_firsts. repeat split.
  - apply firsts_nodup.
  - intros H. now apply firsts_in in H.
  - intros H. apply firsts_in. auto.
  - intros a x b y c H. now apply firsts_order in H.
Qed.

Lemma firsts_subseq l seen : subseq (firsts l seen) l.
Proof.
  revert seen; induction l as [|v l IH]; intros seen; simpl; [constructor|].
  destruct (in_dec violation_eq_dec v seen); constructor; auto.
Qed.

Lemma firsts_id l seen :
  NoDup l -> (forall x, In x l -> ~ In x seen) -> firsts l seen = l.
Proof.
  revert seen; induction l as [|v l IH]; intros seen Hnd Hd; simpl; auto.
  inversion Hnd; subst.
  destruct (in_dec violation_eq_dec v seen) as [i|ni].
  - exfalso. apply (Hd v); simpl; auto.
  - f_equal. apply IH; auto. intros x Hx [->|Hs]; auto. apply (Hd x); simpl; auto.
Qed.

(** The list determined by [one_copy_each] is unique. *)
Lemma first_seen_before_asym {A} (l : list A) x y :
  x <> y -> first_seen_before l x y -> first_seen_before l y x -> False.
Proof.
  intros Hne (a & b & Hl & Hx & Hy) (a' & b' & Hl' & Hy' & Hx').
  rewrite Hl in Hl'. clear Hl.
  revert a' Hx' Hy' Hl'. induction a as [|z a IH]; intros [|z' a'] Hx' Hy' Hl'; simpl in *.
  - inversion Hl'; auto.
  - inversion Hl'; subst. auto.
  - inversion Hl'; subst. auto.
  - inversion Hl'; subst. apply (IH ltac:(auto) ltac:(auto) a'); auto.
Qed.

Lemma one_copy_each_unique {A} (l r1 r2 : list A) :
  one_copy_each l r1 -> one_copy_each l r2 -> r1 = r2.
Proof.
  intros (N1 & M1 & O1) (N2 & M2 & O2).
  assert (M : forall x, In x r1 <-> In x r2) by (intros; rewrite M1, M2; tauto).
  clear M1 M2.
  revert r2 N2 O2 M. induction r1 as [|x r1 IH]; intros [|y r2] N2 O2 M; auto.
  - exfalso. apply (M y). now left.
  - exfalso. apply (M x). now left.
  - assert (Hxy : x = y).
    { destruct (proj1 (M x)) as [|Hx]; [now left | auto |].
      destruct (proj2 (M y)) as [|Hy]; [now left | auto |].
      exfalso. inversion N1; inversion N2; subst.
      apply (first_seen_before_asym l x y).
      - intros ->. auto.
      - apply in_split in Hy as (p & q & ->). now apply (O1 [] x p y q).
      - apply in_split in Hx as (p & q & ->). now apply (O2 [] y p x q). }
    subst y. f_equal. inversion N1; inversion N2; subst.
    apply IH; auto.
    + intros a z b w c ->. apply (O1 (x :: a) z b w c). reflexivity.
    + intros a z b w c ->. apply (O2 (x :: a) z b w c). reflexivity.
    + intros z. specialize (M z). simpl in M. split; intros Hz.
      * destruct (proj1 M) as [->|]; auto. contradiction.
      * destruct (proj2 M) as [->|]; auto. contradiction.
Qed.

(** ** Histories *)

Lemma run_hist_collector h ops c r :
  fst (fst (run_hist h ops c r)) = fold_left record ops c.
Proof.
  revert c r; induction ops as [|o ops IH]; intros c r; [reflexivity|].
  destruct o as [s|v|v|v|q]; cbn [run_hist fold_left record].
  1-4: now rewrite IH.
  specialize (IH c (snd (ask h c r q))).
  destruct (run_hist h ops c (snd (ask h c r q))) as [[c' r'] ans]. exact IH.
Qed.

Lemma fold_record ops c :
  fold_left record ops c =
  {| c_collection := c_collection c ++ recorded_sets ops;
     c_errors := c_errors c ++ recorded_errors ops;
     c_warnings := c_warnings c ++ recorded_warnings ops;
     c_bugs := c_bugs c ++ recorded_bugs ops |}.
Proof.
  revert c; induction ops as [|o ops IH]; intros c; simpl.
  - destruct c; simpl. now rewrite !app_nil_r.
  - rewrite IH. destruct o; simpl; unfold vs_addViolation; rewrite <- ?app_assoc; reflexivity.
Qed.

Definition collected (q : query) (c : collector) : list violation :=
  match q with
  | QViolations => concat (c_collection c)
  | QErrors => c_errors c
  | QWarnings => c_warnings c
  | QBugs => c_bugs c
  end.

Lemma collected_recorded q ops : collected q (fold_left record ops c_empty) = recorded q ops.
Proof. rewrite fold_record. destruct q; reflexivity. Qed.

Lemma ask_raw h c q : ask h c RawR q = (collected q c, RawR).
Proof. destruct q; simpl; now rewrite ?raw_allViolations_concat. Qed.

Definition cached (q : query) (u : ucache) : list violation :=
  match q with
  | QViolations => u_violations u
  | QErrors => u_errors u
  | QWarnings => u_warnings u
  | QBugs => u_bugs u
  end.

Definition set_cached (q : query) (u : ucache) (l : list violation) : ucache :=
  match q with
  | QViolations => {| u_violations := l; u_errors := u_errors u; u_warnings := u_warnings u; u_bugs := u_bugs u |}
  | QErrors => {| u_violations := u_violations u; u_errors := l; u_warnings := u_warnings u; u_bugs := u_bugs u |}
  | QWarnings => {| u_violations := u_violations u; u_errors := u_errors u; u_warnings := l; u_bugs := u_bugs u |}
  | QBugs => {| u_violations := u_violations u; u_errors := u_errors u; u_warnings := u_warnings u; u_bugs := l |}
  end.

Lemma ask_unique_full h c u q :
  cached q u <> [] -> ask h c (UniqueR u) q = (cached q u, UniqueR u).
Proof.
  intros H. destruct q; simpl in *;
    unfold unique_allViolations, unique_allErrors, unique_allWarnings, unique_allCheckerBugs;
    apply is_nil_false in H; rewrite H; reflexivity.
Qed.

Lemma ask_unique_empty h c u q :
  cached q u = [] ->
  ask h c (UniqueR u) q =
  (removeViolationDuplications h (collected q c),
   UniqueR (set_cached q u (removeViolationDuplications h (collected q c)))).
Proof.
  intros H. destruct q; simpl in *;
    unfold unique_allViolations, unique_allErrors, unique_allWarnings, unique_allCheckerBugs;
    rewrite H; simpl; rewrite ?fold_push_all; reflexivity.
Qed.

Definition query_eq_dec (a b : query) : {a = b} + {a <> b}.
Proof. decide equality. Defined.

Lemma cached_set_same q u l : cached q (set_cached q u l) = l.
Proof. destruct q; reflexivity. Qed.

Lemma cached_set_other q q' u l : q <> q' -> cached q' (set_cached q u l) = cached q' u.
Proof. destruct q, q'; intros H; try reflexivity; congruence. Qed.

Lemma getResults_false : getResults false = UniqueR u_fresh. Proof. reflexivity. Qed.

(** Once query [q] has a non-empty cached answer it never changes. *)
Lemma cache_sticky h ops c u q :
  cached q u <> [] ->
  exists u', snd (fst (run_hist h ops c (UniqueR u))) = UniqueR u' /\ cached q u' = cached q u.
Proof.
  revert c u; induction ops as [|o ops IH]; intros c u Hne; [now exists u|].
  destruct o as [s|v|v|v|q']; cbn [run_hist].
  1-4: now apply IH.
  destruct (cached q' u) as [|w l] eqn:E.
  - rewrite (ask_unique_empty h c u q' E). cbn [fst snd].
    assert (Hqq : q' <> q) by congruence.
    destruct (IH c (set_cached q' u (removeViolationDuplications h (collected q' c))))
      as (u' & H1 & H2).
    { now rewrite cached_set_other. }
    rewrite cached_set_other in H2 by auto.
    destruct (run_hist _ _ _ _) as [[c' r'] ans]; simpl in *. now exists u'.
  - rewrite (ask_unique_full h c u q') by congruence. cbn [fst snd].
    destruct (IH c u Hne) as (u' & H1 & H2).
    destruct (run_hist _ _ _ _) as [[c' r'] ans]; simpl in *. now exists u'.
Qed.

(** Answers to [q] recorded in a history. *)
Definition answers_to (q : query) (ans : list (query * list violation)) : list (list violation) :=
  flat_map (fun a => if query_eq_dec (fst a) q then [snd a] else []) ans.

Lemma run_hist_unique h ops c u :
  exists u', snd (fst (run_hist h ops c (UniqueR u))) = UniqueR u'.
Proof.
  revert c u; induction ops as [|o ops IH]; intros c u; [now exists u|].
  destruct o as [s|v|v|v|q']; cbn [run_hist]; auto.
  assert (exists w, snd (ask h c (UniqueR u) q') = UniqueR w) as [w ->] by (simpl; eauto).
  destruct (IH c w) as [u' Hu]. destruct (run_hist _ _ _ _) as [[c' r'] ans]; simpl in *. eauto.
Qed.

(** If no answer to [q] was non-empty, the cache for [q] is still empty. *)
Lemma cache_empty_until h ops c u q :
  cached q u = [] ->
  (forall l, In (q, l) (snd (run_hist h ops c (UniqueR u))) -> l = []) ->
  forall u', snd (fst (run_hist h ops c (UniqueR u))) = UniqueR u' -> cached q u' = [].
Proof.
  revert c u; induction ops as [|o ops IH]; intros c u He Hans u' Hu'.
  - simpl in Hu'. now inversion Hu'; subst.
  - destruct o as [s|v|v|v|q']; cbn [run_hist] in Hans, Hu'.
    1-4: now apply (IH _ u He Hans u' Hu').
    destruct (cached q' u) as [|w l] eqn:E.
    + rewrite (ask_unique_empty h c u q' E) in Hans, Hu'. cbn [fst snd] in Hans, Hu'.
      set (r := removeViolationDuplications h (collected q' c)) in *.
      specialize (IH c (set_cached q' u r)).
      destruct (run_hist h ops c (UniqueR (set_cached q' u r))) as [[c' r'] ans] eqn:R.
      simpl in *.
      apply IH; auto.
      destruct (query_eq_dec q' q) as [->|Hn].
      * rewrite cached_set_same. now apply Hans; left.
      * now rewrite cached_set_other.
    + rewrite (ask_unique_full h c u q') in Hans, Hu' by congruence. cbn [fst snd] in Hans, Hu'.
      specialize (IH c u He).
      destruct (run_hist h ops c (UniqueR u)) as [[c' r'] ans] eqn:R. simpl in *.
      apply IH; auto.
Qed.

(** ** Property lemmas *)

Lemma unique_answer_fresh h ops q :
  (forall l, In (q, l) (snd (run_hist h ops c_empty (getResults false))) -> l = []) ->
  answer_after h false ops q = removeViolationDuplications h (recorded q ops).
Proof.
  intros H. unfold answer_after. rewrite getResults_false in *.
  pose proof (run_hist_collector h ops c_empty (UniqueR u_fresh)) as Hc.
  destruct (run_hist_unique h ops c_empty u_fresh) as [u' Hu'].
  assert (E : cached q u' = []).
  { eapply cache_empty_until; eauto. destruct q; reflexivity. }
  destruct (run_hist h ops c_empty (UniqueR u_fresh)) as [[c r] ans]. simpl in *. subst r c.
  rewrite (ask_unique_empty h _ u' q E). cbn [fst]. now rewrite collected_recorded.
Qed.

Lemma c01 h ops q :
  (forall l, In (q, l) (snd (run_hist h ops c_empty (getResults false))) -> l = []) ->
  one_copy_each (recorded q ops) (answer_after h false ops q).
Proof. intros H. rewrite unique_answer_fresh by auto. apply dedup_one_copy_each. Qed.

Lemma run_hist_raw h ops c : snd (fst (run_hist h ops c RawR)) = RawR.
Proof.
  revert c; induction ops as [|o ops IH]; intros c; [reflexivity|].
  destruct o as [s|v|v|v|q]; cbn [run_hist]; auto.
  rewrite ask_raw. cbn [fst snd]. specialize (IH c).
  destruct (run_hist h ops c RawR) as [[c' r'] ans]. exact IH.
Qed.

Lemma c02 h ops q : answer_after h true ops q = recorded q ops.
Proof.
  unfold answer_after. simpl getResults.
  pose proof (run_hist_raw h ops c_empty) as Hr.
  pose proof (run_hist_collector h ops c_empty RawR) as Hc.
  destruct (run_hist h ops c_empty RawR) as [[c r] ans]. simpl in *. subst.
  rewrite ask_raw. cbn [fst]. apply collected_recorded.
Qed.

Lemma dedup_subseq h l : subseq (removeViolationDuplications h l) l.
Proof. rewrite dedup_firsts. apply firsts_subseq. Qed.

Lemma c03_subseq h ops q :
  (forall l, In (q, l) (snd (run_hist h ops c_empty (getResults false))) -> l = []) ->
  subseq (answer_after h false ops q) (answer_after h true ops q).
Proof. intros H. rewrite unique_answer_fresh, c02 by auto. apply dedup_subseq. Qed.

Lemma c03_equal h ops q :
  (forall l, In (q, l) (snd (run_hist h ops c_empty (getResults false))) -> l = []) ->
  (answer_after h false ops q = answer_after h true ops q <-> NoDup (recorded q ops)).
Proof.
  intros H. rewrite unique_answer_fresh, c02, dedup_firsts by auto. split.
  - intros <-. apply firsts_nodup.
  - intros Hn. apply firsts_id; auto.
Qed.

Lemma priority_loop env p l n :
  numberWithPriority_loop env p l n =
  if forallb (fun v => match v_rule v with Some _ => true | None => false end) l
  then Val (n + Z.of_nat (length (filter (has_priorityb env p) l)))%Z
  else UB.
Proof.
  revert n; induction l as [|v l IH]; intros n; simpl.
  - f_equal. lia.
  - unfold has_priorityb at 1. destruct (v_rule v) as [a|]; simpl; auto.
    rewrite IH. destruct (forallb _ l); auto.
    destruct (Z.eqb (ri_priority (env a)) p); simpl; f_equal; lia.
Qed.

Lemma has_priorityb_iff env p v : has_priorityb env p v = true <-> has_priority env p v.
Proof.
  unfold has_priorityb, has_priority. destruct (v_rule v) as [a|]; split.
  - intros H. exists a. split; auto. now apply Z.eqb_eq.
  - intros (b & [= <-] & H). now apply Z.eqb_eq.
  - discriminate.
  - intros (b & H & _). discriminate.
Qed.

Lemma c04_val env l p :
  Forall (fun v => v_rule v <> None) l ->
  numberOfViolationsWithPriority env l p
  = Val (Z.of_nat (length (filter (has_priorityb env p) l))).
Proof.
  intros H. unfold numberOfViolationsWithPriority. rewrite priority_loop.
  replace (forallb _ l) with true; [reflexivity|]. symmetry. apply forallb_forall.
  intros v Hv. rewrite Forall_forall in H. specialize (H v Hv). now destruct (v_rule v).
Qed.

Lemma c04_ub env l p :
  (exists v, In v l /\ v_rule v = None) -> numberOfViolationsWithPriority env l p = UB.
Proof.
  intros (v & Hv & Hn). unfold numberOfViolationsWithPriority. rewrite priority_loop.
  destruct (forallb _ l) eqn:E; auto. rewrite forallb_forall in E. specialize (E v Hv).
  now rewrite Hn in E.
Qed.

Lemma filter3_length {A} (f g k : A -> bool) l :
  (forall x, In x l -> f x = true -> g x = false) ->
  (forall x, In x l -> f x = true -> k x = false) ->
  (forall x, In x l -> g x = true -> k x = false) ->
  length (filter f l) + length (filter g l) + length (filter k l)
  = length (filter (fun x => f x || g x || k x) l).
Proof.
  induction l as [|x l IH]; intros H1 H2 H3; simpl; auto.
  assert (IH' := IH ltac:(intros; apply H1; simpl; auto) ltac:(intros; apply H2; simpl; auto)
                    ltac:(intros; apply H3; simpl; auto)).
  specialize (H1 x ltac:(simpl; auto)). specialize (H2 x ltac:(simpl; auto)).
  specialize (H3 x ltac:(simpl; auto)).
  destruct (f x), (g x), (k x); simpl; try lia; exfalso;
    try (specialize (H1 eq_refl)); try (specialize (H2 eq_refl)); try (specialize (H3 eq_refl)); discriminate.
Qed.

Lemma filter_all_length {A} (f : A -> bool) l :
  length (filter f l) = length l <-> (forall x, In x l -> f x = true).
Proof.
  induction l as [|x l IH]; simpl; [split; [intros _ ? [] | auto]|].
  pose proof (subseq_length _ _ (filter_subseq f l)) as Hle.
  destruct (f x) eqn:E; simpl.
  - rewrite Nat.succ_inj_wd, IH. split; intros H.
    + intros y [<-|Hy]; auto.
    + auto.
  - split; intros H; [exfalso; lia|]. specialize (H x (or_introl eq_refl)). congruence.
Qed.

Lemma c04_sum env l n1 n2 n3 :
  numberOfViolationsWithPriority env l 1 = Val n1 ->
  numberOfViolationsWithPriority env l 2 = Val n2 ->
  numberOfViolationsWithPriority env l 3 = Val n3 ->
  ((n1 + n2 + n3)%Z = numberOfList l <->
   forall v, In v l -> has_priority env 1 v \/ has_priority env 2 v \/ has_priority env 3 v).
Proof.
  unfold numberOfViolationsWithPriority. rewrite !priority_loop.
  destruct (forallb _ l); try discriminate.
  intros [= <-] [= <-] [= <-]. unfold numberOfList.
  assert (D : forall p q v, p <> q -> has_priorityb env p v = true -> has_priorityb env q v = false).
  { intros p q v Hne. unfold has_priorityb. destruct (v_rule v) as [a|]; auto.
    intros H. apply Z.eqb_eq in H. apply Z.eqb_neq. congruence. }
  pose proof (filter3_length (has_priorityb env 1) (has_priorityb env 2) (has_priorityb env 3) l)
    as F.
  rewrite <- !Nat2Z.inj_add. rewrite F; try (intros; eapply D; eauto; lia).
  rewrite Nat2Z.inj_iff, filter_all_length. split; intros H v Hv; specialize (H v Hv).
  - apply orb_true_iff in H as [H|H]; [apply orb_true_iff in H as [H|H]|];
      apply has_priorityb_iff in H; auto.
  - rewrite <- !has_priorityb_iff in H. destruct H as [-> | [-> | ->]]; rewrite ?orb_true_r; auto.
Qed.

(** ** Files with violations *)

Lemma map_add_keys m k n :
  map fst (map_add m k n) =
  if in_dec str_eq_dec k (map fst m) then map fst m else map fst m ++ [k].
Proof.
  induction m as [|[k' n'] m IH]; cbn [map_add map fst]; [reflexivity|].
  destruct (str_eqb k' k) eqn:E.
  - apply str_eqb_eq in E as ->. cbn [map fst].
    destruct (in_dec str_eq_dec k (k :: map fst m)) as [|n0]; [reflexivity|].
    exfalso; apply n0; now left.
  - apply str_eqb_neq in E. cbn [map fst]. rewrite IH.
    destruct (in_dec str_eq_dec k (map fst m)) as [i|ni];
      destruct (in_dec str_eq_dec k (k' :: map fst m)) as [j|nj]; auto.
    + exfalso. apply nj. now right.
    + exfalso. destruct j; auto.
Qed.

Lemma fwv_keys sets m :
  NoDup (map fst m) ->
  NoDup (map fst (fold_left fwv_step sets m)) /\
  (forall k, In k (map fst (fold_left fwv_step sets m)) <->
             In k (map fst m) \/ In k (flat_map first_path sets)).
Proof.
  revert m; induction sets as [|s sets IH]; intros m Hnd; cbn [fold_left flat_map].
  - split; auto. intros k; simpl; tauto.
  - destruct s as [|v s].
    + simpl. now apply IH.
    + cbn [fwv_step first_path app].
      assert (Hk := map_add_keys m (v_path v) (vs_numberOfViolations (v :: s))).
      destruct (IH (map_add m (v_path v) (vs_numberOfViolations (v :: s)))) as [I1 I2].
      { rewrite Hk. destruct (in_dec str_eq_dec (v_path v) (map fst m)); auto.
        clear -Hnd n. induction (map fst m) as [|x l IHl]; simpl.
        - constructor; [intros []|constructor].
        - inversion Hnd; subst. constructor.
          + rewrite in_app_iff. simpl. simpl in n. intros [H|[H|[]]]; subst; tauto.
          + apply IHl; auto. simpl in n; tauto. }
      split; auto. intros k. rewrite I2, Hk. simpl.
      destruct (in_dec str_eq_dec (v_path v) (map fst m)) as [i|ni].
      * split; [tauto|]. intros [H|[H|H]]; subst; auto.
      * rewrite in_app_iff. simpl. tauto.
Qed.

Lemma distinct_count_det {A} (l : list A) n m :
  distinct_count l n -> distinct_count l m -> n = m.
Proof.
  intros (d & Nd & Md & <-) (e & Ne & Me & <-).
  apply Nat.le_antisymm; apply NoDup_incl_length; auto; intros x Hx.
  - apply Me, Md, Hx.
  - apply Md, Me, Hx.
Qed.

Lemma c05_count c :
  exists n, distinct_count (flat_map first_path (c_collection c)) n /\
            numberOfFilesWithViolations c = Z.of_nat n.
Proof.
  destruct (fwv_keys (c_collection c) [] (NoDup_nil _)) as [H1 H2].
  exists (length (fold_left fwv_step (c_collection c) [])). split; [|reflexivity].
  exists (map fst (fold_left fwv_step (c_collection c) [])). split; [exact H1|]. split.
  - intros x. rewrite H2. simpl. tauto.
  - now rewrite map_length.
Qed.

Lemma flat_map_first_path_length sets : length (flat_map first_path sets) <= length sets.
Proof.
  induction sets as [|s sets IH]; simpl; auto. rewrite app_length.
  destruct s; simpl; lia.
Qed.

Lemma c05_le c : (numberOfFilesWithViolations c <= numberOfFiles c)%Z.
Proof.
  destruct (c05_count c) as (n & (d & Nd & Md & <-) & ->). unfold numberOfFiles.
  apply inj_le.
  etransitivity; [|apply (flat_map_first_path_length (c_collection c))].
  apply NoDup_incl_length; auto. intros x Hx. now apply Md.
Qed.

Lemma c05_zero c : numberOfFilesWithViolations c = 0%Z <-> raw_allViolations c = [].
Proof.
  rewrite raw_allViolations_concat.
  destruct (c05_count c) as (n & (d & Nd & Md & <-) & ->).
  split; intros H.
  - assert (d = []) as -> by (destruct d; [reflexivity | simpl in H; lia]).
    clear H Nd. assert (Hall : forall s, In s (c_collection c) -> s = []).
    { intros [|v s] Hs; auto. exfalso. apply (Md (v_path v)).
      apply in_flat_map. exists (v :: s). simpl. auto. }
    induction (c_collection c) as [|s l IH]; auto. simpl.
    rewrite (Hall s) by (simpl; auto). simpl. apply IH.
    + intros x. split; [intros []|]. intros Hx. apply (Md x). simpl. apply in_app_iff. auto.
    + intros; apply Hall; simpl; auto.
  - assert (Hd : d = []).
    { destruct d as [|k d]; auto. exfalso.
      assert (Hk : In k (flat_map first_path (c_collection c))) by (apply Md; now left).
      apply in_flat_map in Hk as ([|v s] & Hs & Hk); [destruct Hk|].
      apply in_split in Hs as (a & b & E). rewrite E, concat_app in H. simpl in H.
      now apply app_eq_nil in H as [_ H]. }
    now subst d.
Qed.

(** ** Caching *)

Lemma ask_stable h c r q :
  ask h c (snd (ask h c r q)) q = (fst (ask h c r q), snd (ask h c r q)).
Proof.
  destruct r as [|u].
  - rewrite !ask_raw. reflexivity.
  - destruct (cached q u) as [|w l] eqn:E.
    + rewrite (ask_unique_empty h c u q E). cbn [fst snd].
      set (r := removeViolationDuplications h (collected q c)).
      destruct r as [|w' l'] eqn:R.
      * rewrite ask_unique_empty by (now rewrite cached_set_same).
        fold r. rewrite R. f_equal. destruct q; reflexivity.
      * rewrite ask_unique_full by (rewrite cached_set_same; discriminate).
        now rewrite cached_set_same.
    + rewrite (ask_unique_full h c u q) by congruence. cbn [fst snd].
      now rewrite ask_unique_full by congruence.
Qed.

Lemma c06_stale h ops1 ops2 q l :
  let '(c, r, _) := run_hist h ops1 c_empty (getResults false) in
  fst (ask h c r q) = l -> l <> [] ->
  let '(c', r', _) := run_hist h ops2 c (snd (ask h c r q)) in
  fst (ask h c' r' q) = l.
Proof.
  rewrite getResults_false.
  destruct (run_hist_unique h ops1 c_empty u_fresh) as [u Hu].
  destruct (run_hist h ops1 c_empty (UniqueR u_fresh)) as [[c r] ans]. simpl in Hu. subst r.
  intros Hl Hne.
  assert (exists w, snd (ask h c (UniqueR u) q) = UniqueR w /\ cached q w = l) as (w & -> & Hw).
  { destruct (cached q u) as [|x k] eqn:E.
    - rewrite (ask_unique_empty h c u q E) in *. cbn [fst snd] in *. eexists. split; eauto.
      now rewrite cached_set_same.
    - rewrite (ask_unique_full h c u q) in * by congruence. cbn [fst snd] in *. eauto. }
  destruct (cache_sticky h ops2 c w q) as (u' & H1 & H2); [congruence|].
  destruct (run_hist h ops2 c (UniqueR w)) as [[c' r'] ans']. simpl in H1. subst r'.
  rewrite ask_unique_full by congruence. cbn [fst]. congruence.
Qed.

(** ** Carrier *)

Lemma carrier_add_eq s path sl sc el ec rule msg :
  carrier_addViolation s path sl sc el ec rule msg =
  if str_eq_dec path [] then s
  else s ++ [{| v_rule := rule; v_path := path; v_startLine := sl; v_startColumn := sc;
                v_endLine := el; v_endColumn := ec; v_message := msg |}].
Proof.
  unfold carrier_addViolation, vs_addViolation.
  destruct (str_eq_dec path []) as [->|Hn]; [reflexivity|].
  apply str_eqb_neq in Hn. now rewrite Hn.
Qed.
