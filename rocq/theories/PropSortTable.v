(** * C132: sorting the table of an HTML report *)
From Verif Require SpecReporters.
From Verif Require Import Base ModelResults ModelSortTable SpecSortTable.

(** ** Dictionary order *)
Lemma less_iff : forall a b, less a b = true <-> precedes a b.
Proof.
  induction a as [|x a IH]; intros [|y b]; simpl.
  - split; [discriminate|inversion 1].
  - split; auto using pr_prefix.
  - split; [discriminate|inversion 1].
  - destruct (Nat.ltb_spec x y) as [L|L]; [split; auto using pr_less|].
    destruct (Nat.ltb_spec y x) as [L'|L'].
    + split; [discriminate|]. inversion 1; subst; lia.
    + assert (x = y) by lia. subst. rewrite IH. split; [auto using pr_same|]. inversion 1; subst; auto; lia.
Qed.
Lemma less_total : forall a b, less a b = false -> not_after b a.
Proof.
  induction a as [|x a IH]; intros [|y b] H; simpl in H; try discriminate.
  - left. reflexivity.
  - right. constructor.
  - destruct (Nat.ltb_spec x y); [discriminate|]. destruct (Nat.ltb_spec y x); [right; constructor; auto|].
    assert (x = y) by lia. subst. destruct (IH _ H) as [->|P]; [left; auto|right; apply pr_same; auto].
Qed.
Lemma precedes_trans : forall a b c, precedes a b -> precedes b c -> precedes a c.
Proof.
  intros a b c P. revert c. induction P; intros c Q; inversion Q; subst; try (constructor; lia); try constructor; auto; lia.
Qed.
Lemma precedes_irrefl : forall a, ~ precedes a a.
Proof. intros a. induction a; inversion 1; subst; auto; lia. Qed.
Lemma not_after_trans : forall a b c, not_after a b -> not_after b c -> not_after a c.
Proof. intros a b c [->|P] [->|Q]; unfold not_after; auto. right. eapply precedes_trans; eauto. Qed.
Lemma not_after_less : forall a b, not_after a b <-> less b a = false.
Proof.
  intros a b. split; [|apply less_total]. intros H. destruct (less b a) eqn:E; auto. apply less_iff in E.
  destruct H as [->|H]; [|pose proof (precedes_trans _ _ _ E H)]; exfalso; eapply precedes_irrefl; eauto.
Qed.

Section Script.
  Variable toLowerCase : units -> units.
  Variable n : nat.
  Let key := text_in toLowerCase n.
  Let wide (r : row) := n < length r.

  Lemma cell_key : forall r, wide r -> cell toLowerCase n r = Some (key r).
  Proof.
    intros r W. unfold cell, key, text_in. destruct (nth_error r n) as [u|] eqn:E.
    - simpl. do 2 f_equal. symmetry. apply nth_error_nth. exact E.
    - apply nth_error_None in E. unfold wide in W. lia.
  Qed.

  (** The order a direction asks for. *)
  Definition fine (asc : bool) (r r' : row) : Prop :=
    if asc then not_after (key r) (key r') else not_after (key r') (key r).
  Lemma fine_iff : forall asc r r', fine asc r r' <-> shouldSwitch asc (key r) (key r') = false.
  Proof. intros [] r r'; simpl; apply not_after_less. Qed.
  Lemma fine_trans : forall asc a b c, fine asc a b -> fine asc b c -> fine asc a c.
  Proof. intros [] a b c H K; simpl in *; eapply not_after_trans; eauto. Qed.
  Lemma switch_asym : forall asc x y, shouldSwitch asc x y = true -> shouldSwitch asc y x = false.
  Proof.
    intros [] x y H; simpl in *; apply not_after_less; right; apply less_iff; auto.
  Qed.

  Lemma nth_mid : forall (p : list row) x q, nth_error (p ++ x :: q) (length p) = Some x.
  Proof. intros. rewrite nth_error_app2, Nat.sub_diag; auto. Qed.

  (** The scan over [p ++ q], standing at [q]. *)
  Lemma scan_spec : forall asc q p, Forall wide q -> q <> [] ->
    match scan toLowerCase n (length q - 1) asc (p ++ q) (length p) with
    | Throws => False
    | NoSwitch => Sorted (fine asc) q
    | Switch i => exists a x y b, q = a ++ x :: y :: b /\ i = length p + length a
                    /\ shouldSwitch asc (key x) (key y) = true
    end.
  Proof.
    intros asc q. induction q as [|x q IH]; intros p W N; [congruence|].
    destruct q as [|y q].
    - simpl. constructor; constructor.
    - inversion W as [|? ? Wx W']; subst. inversion W' as [|? ? Wy W'']; subst.
      replace (length (x :: y :: q) - 1) with (S (length (y :: q) - 1)) by (simpl; lia).
      cbn [scan]. rewrite nth_mid.
      assert (E : p ++ x :: y :: q = (p ++ [x]) ++ y :: q) by (rewrite <- app_assoc; reflexivity).
      replace (length p + 1) with (length (p ++ [x])) by (rewrite app_length; reflexivity).
      rewrite E, nth_mid, !cell_key by auto.
      destruct (shouldSwitch asc (key x) (key y)) eqn:S.
      + exists [], x, y, q. simpl. repeat split; auto.
      + assert (N' : y :: q <> []) by discriminate. specialize (IH (p ++ [x]) W' N').
        destruct (scan _ _ _ _ _ _) as [i| |]; auto.
        * destruct IH as (a & x' & y' & b & Q & I & S'). exists (x :: a), x', y', b. rewrite Q.
          split; [reflexivity|]. split; auto. rewrite I, app_length. simpl. lia.
        * constructor; auto. constructor. apply fine_iff. auto.
  Qed.

  Lemma insertBefore_eq : forall p x y q, insertBefore (p ++ x :: y :: q) (length p) = p ++ y :: x :: q.
  Proof.
    intros. unfold insertBefore. rewrite nth_mid.
    assert (E : p ++ x :: y :: q = (p ++ [x]) ++ y :: q) by (rewrite <- app_assoc; reflexivity).
    replace (nth_error (p ++ x :: y :: q) (length p + 1)) with (Some y).
    - rewrite firstn_app, firstn_all, Nat.sub_diag, skipn_app. simpl. rewrite app_nil_r.
      rewrite skipn_all2 by lia. replace (length p + 2 - length p) with 2 by lia. reflexivity.
    - replace (length p + 1) with (length (p ++ [x])) by (rewrite app_length; reflexivity).
      rewrite E, nth_mid. reflexivity.
  Qed.

  (** Inversions *)
  Definition over (asc : bool) (r : row) (l : list row) : nat :=
    length (filter (fun r' => shouldSwitch asc (key r) (key r')) l).
  Fixpoint inversions (asc : bool) (l : list row) : nat :=
    match l with [] => 0 | r :: l' => over asc r l' + inversions asc l' end.
  Lemma over_app : forall asc r a b, over asc r (a ++ b) = over asc r a + over asc r b.
  Proof. intros. unfold over. rewrite filter_app, app_length. reflexivity. Qed.
  Lemma inversions_swap : forall asc a x y b, shouldSwitch asc (key x) (key y) = true ->
    inversions asc (a ++ x :: y :: b) = S (inversions asc (a ++ y :: x :: b)).
  Proof.
    intros asc a x y b S. induction a as [|r a IH]; simpl.
    - unfold over. simpl. rewrite S, (switch_asym _ _ _ S). simpl. lia.
    - rewrite IH, !over_app. unfold over. simpl.
      destruct (shouldSwitch asc (key r) (key x)), (shouldSwitch asc (key r) (key y)); simpl; lia.
  Qed.

  (** What a run of swaps preserves. *)
  Definition reordered (b b' : list row) : Prop := Permutation b b' /\ stable key b b'.
  Lemma reordered_refl : forall b, reordered b b.
  Proof. intros. split; [auto|intros ? ? ?; reflexivity]. Qed.
  Lemma reordered_swap : forall asc a x y b c, shouldSwitch asc (key x) (key y) = true ->
    reordered (a ++ y :: x :: b) c -> reordered (a ++ x :: y :: b) c.
  Proof.
    intros asc a x y b c S [P St]. split.
    - transitivity (a ++ y :: x :: b); auto. apply Permutation_app_head. constructor.
    - intros t same Same. rewrite (St t same Same), !filter_app. f_equal. simpl.
      destruct (same x) eqn:X, (same y) eqn:Y; auto. apply Same in X. apply Same in Y. subst t.
      rewrite Y in S. exfalso. pose proof (switch_asym _ _ _ S) as S'. congruence.
  Qed.

  (** After a first switch, or in the descending direction: down to the end. *)
  Lemma sort_rest : forall asc k h body count, inversions asc body = k -> Forall wide body ->
    (count <> 0 \/ asc = false) ->
    exists body', (forall fuel, k < fuel -> sort_loop toLowerCase n fuel (h :: body) asc count = Some (Val (h :: body')))
      /\ reordered body body' /\ StronglySorted (fine asc) body'.
  Proof.
    intros asc k. induction k as [k IH] using (well_founded_induction lt_wf). intros h body count K W D.
    destruct body as [|r body].
    { exists []. split; [|split; [apply reordered_refl|constructor]]. intros [|fuel] F; [lia|]. simpl.
      destruct D as [D| ->]; [|rewrite andb_false_r; auto]. destruct (Nat.eqb_spec count 0); [contradiction|auto]. }
    assert (N : r :: body <> []) by discriminate.
    pose proof (scan_spec asc (r :: body) [h] W N) as Sc.
    change ([h] ++ r :: body) with (h :: r :: body) in Sc.
    replace (length (r :: body) - 1) with (length (h :: r :: body) - 2) in Sc by (simpl; lia).
    change (length [h]) with 1 in Sc.
    destruct (scan toLowerCase n (length (h :: r :: body) - 2) asc (h :: r :: body) 1) as [i| |] eqn:E; [| |contradiction].
    - destruct Sc as (a & x & y & b & Q & I & S). rewrite Q in *.
      assert (K' : inversions asc (a ++ y :: x :: b) < k) by (rewrite inversions_swap in K by auto; lia).
      assert (W' : Forall wide (a ++ y :: x :: b)).
      { apply Forall_app in W as [Wa Wb]. apply Forall_app. split; auto. inversion Wb; subst. inversion H2; subst. auto. }
      destruct (IH _ K' h _ (count + 1) eq_refl W') as (body' & R & Re & So); [left; lia|].
      exists body'. split; [|split; auto; eapply reordered_swap; eauto].
      intros [|fuel] F; [lia|]. cbn [sort_loop]. rewrite E.
      replace i with (length (h :: a)) by (simpl; lia).
      change (h :: a ++ x :: y :: b) with ((h :: a) ++ x :: y :: b). rewrite insertBefore_eq.
      apply R. lia.
    - exists (r :: body). split; [|split; [apply reordered_refl|]].
      + intros [|fuel] F; [lia|]. cbn [sort_loop]. rewrite E.
        destruct D as [D| ->]; [|rewrite andb_false_r; auto]. destruct (Nat.eqb_spec count 0); [contradiction|auto].
      + apply Sorted_StronglySorted; auto. intros ? ? ?. apply fine_trans.
  Qed.

  Lemma strongly_mono : forall (A : Type) (P Q : A -> A -> Prop) l, (forall a b, P a b -> Q a b) ->
    StronglySorted P l -> StronglySorted Q l.
  Proof. intros A P Q l H S. induction S; constructor; auto. eapply Forall_impl; [|exact H0]. auto. Qed.

  Lemma first_pass : forall h body, Forall wide body -> ~ ascending key body ->
    exists a x y b, body = a ++ x :: y :: b /\ shouldSwitch true (key x) (key y) = true
      /\ scan toLowerCase n (length (h :: body) - 2) true (h :: body) 1 = Switch (length (h :: a)).
  Proof.
    intros h body W A. destruct body as [|r body]; [exfalso; apply A; constructor|].
    assert (N : r :: body <> []) by discriminate. pose proof (scan_spec true (r :: body) [h] W N) as Sc.
    replace (length (r :: body) - 1) with (length (h :: r :: body) - 2) in Sc by (simpl; lia).
    change ([h] ++ r :: body) with (h :: r :: body) in Sc. change (length [h]) with 1 in Sc.
    destruct (scan _ _ _ _ _ _) as [i| |] eqn:E; [| |contradiction].
    - destruct Sc as (a & x & y & b & Q & I & S). exists a, x, y, b. split; [exact Q|]. split; [exact S|]. rewrite I. reflexivity.
    - exfalso. apply A. apply Sorted_StronglySorted; auto. intros ? ? ?. apply (fine_trans true).
  Qed.
  Lemma no_pass : forall h body, Forall wide body -> ascending key body ->
    scan toLowerCase n (length (h :: body) - 2) true (h :: body) 1 = NoSwitch.
  Proof.
    intros h body W A. destruct body as [|r body]; [reflexivity|].
    assert (N : r :: body <> []) by discriminate. pose proof (scan_spec true (r :: body) [h] W N) as Sc.
    replace (length (r :: body) - 1) with (length (h :: r :: body) - 2) in Sc by (simpl; lia).
    change ([h] ++ r :: body) with (h :: r :: body) in Sc. change (length [h]) with 1 in Sc.
    destruct (scan _ _ _ _ _ _) as [i| |] eqn:E; [exfalso|reflexivity|contradiction].
    destruct Sc as (a & x & y & b & Q & I & S). rewrite Q in A. clear - A S. induction a as [|z a IH].
    - inversion A; subst. inversion H2; subst. apply (fine_iff true) in H3. congruence.
    - apply IH. inversion A; auto.
  Qed.
End Script.

(** ** C132 *)

Lemma ascending_dec : forall key body, {ascending key body} + {~ ascending key body}.
Proof.
  intros key body. induction body as [|r body [IH|IH]].
  - left. constructor.
  - destruct (Forall_dec (fun r' => not_after (key r) (key r'))
                (fun r' => match Sumbool.sumbool_of_bool (less (key r') (key r)) with
                           | left e => right (fun H => Bool.eq_true_false_abs _ e (proj1 (not_after_less _ _) H))
                           | right e => left (proj2 (not_after_less _ _) e) end) body) as [F|F].
    + left. constructor; auto.
    + right. inversion 1; auto.
  - right. inversion 1; auto.
Qed.

(** A click on a heading always ends.  It leaves the heading row and moves no row out of the
    table; the rows end up in ascending order of the column's text, or in descending order if
    they were in ascending order before; rows with the same text keep their order. *)
Theorem c132_click_sorts : forall lower n (h : row) (body : list row),
  Forall (fun r : row => n < length r) body ->
  exists body', click lower n (h :: body) (h :: body')
    /\ Permutation body body'
    /\ stable (text_in lower n) body body'
    /\ (~ ascending (text_in lower n) body -> ascending (text_in lower n) body')
    /\ (ascending (text_in lower n) body -> descending (text_in lower n) body').
Proof.
  intros lower n h body W. destruct (ascending_dec (text_in lower n) body) as [A|A].
  - destruct (sort_rest lower n false _ h body 0 eq_refl W (or_intror eq_refl)) as (body' & R & (P & St) & So).
    exists body'. split; [|split; [|split; [|split]]]; auto; [|contradiction].
    exists (S (S (inversions lower n false body))). intros [|fuel] F; [lia|]. unfold sortTable. cbn [sort_loop].
    rewrite no_pass by auto. simpl. apply R. lia.
  - destruct (first_pass lower n h body W A) as (a & x & y & b & Q & S & Sc).
    assert (W' : Forall (fun r : row => n < length r) (a ++ y :: x :: b)).
    { rewrite Q in W. apply Forall_app in W as [Wa Wb]. apply Forall_app. split; auto. inversion Wb; subst. inversion H2; subst. auto. }
    destruct (sort_rest lower n true _ h (a ++ y :: x :: b) 1 eq_refl W') as (body' & R & Re & So); [left; lia|].
    rewrite Q in *. apply (reordered_swap lower n true) in Re as [P St]; auto.
    exists body'. split; [|split; [|split; [|split]]]; auto; [|contradiction].
    exists (Datatypes.S (Datatypes.S (inversions lower n true (a ++ y :: x :: b)))). intros [|fuel] F; [lia|].
    unfold sortTable. cbn [sort_loop]. rewrite Sc.
    change (h :: a ++ x :: y :: b) with ((h :: a) ++ x :: y :: b). rewrite insertBefore_eq. apply R. lia.
Qed.

(** The outcome of a click is unique, so that the theorem above tells all about it. *)
Theorem c132_click_unique : forall lower n rows r1 r2, click lower n rows r1 -> click lower n rows r2 -> r1 = r2.
Proof.
  intros lower n rows r1 r2 [n1 H1] [n2 H2]. specialize (H1 (n1 + n2) ltac:(lia)). specialize (H2 (n1 + n2) ltac:(lia)).
  rewrite H1 in H2. inversion H2. reflexivity.
Qed.

(** Clicking the same heading again reverses the order. *)
Theorem c132_second_click : forall lower n (h : row) (body rows1 : list row),
  Forall (fun r : row => n < length r) body -> ~ ascending (text_in lower n) body ->
  click lower n (h :: body) rows1 ->
  exists body1 body2, rows1 = h :: body1 /\ ascending (text_in lower n) body1
    /\ click lower n rows1 (h :: body2) /\ descending (text_in lower n) body2 /\ Permutation body body2.
Proof.
  intros lower n h body rows1 W A C. destruct (c132_click_sorts lower n h body W) as (b1 & C1 & P1 & _ & A1 & _).
  rewrite (c132_click_unique _ _ _ _ _ C C1). specialize (A1 A).
  assert (W1 : Forall (fun r : row => n < length r) b1) by (eapply Permutation_Forall; eauto).
  destruct (c132_click_sorts lower n h b1 W1) as (b2 & C2 & P2 & _ & _ & D2).
  exists b1, b2. repeat split; auto. transitivity b1; auto.
Qed.

(** Every table a report contains (C93: [html_cells] are its rows) can be sorted by each of its
    six columns, whatever was found; no finding is lost or doubled. *)
Definition table_of (V : SpecReporters.view) : list row :=
  map (fun cells => map (fun c => units_of (snd c)) cells) (SpecReporters.html_cells V).
Theorem c132_report_sorts : forall lower n V (h : row), n < 6 -> SpecReporters.ruled_view V ->
  exists body', click lower n (h :: table_of V) (h :: body')
    /\ Permutation (table_of V) body' /\ stable (text_in lower n) (table_of V) body'
    /\ (~ ascending (text_in lower n) (table_of V) -> ascending (text_in lower n) body')
    /\ (ascending (text_in lower n) (table_of V) -> descending (text_in lower n) body').
Proof.
  intros lower n V h N R. apply c132_click_sorts.
  unfold table_of, SpecReporters.html_cells. rewrite Forall_map, !Forall_app, !Forall_map.
  assert (Fixed : forall a b c l, Forall (fun x : SpecReporters.entry => n < length (map (fun d => units_of (snd d)) (SpecReporters.fixed_cells a b c x))) l).
  { intros. apply Forall_forall. intros e _. simpl. lia. }
  split; [|auto]. unfold SpecReporters.ruled_view in R. eapply Forall_impl; [|exact R].
  intros e E. unfold SpecReporters.finding_cells. destruct (SpecReporters.e_rule e) eqn:X; [simpl; lia|congruence].
Qed.

(** Finding: numbers are compared as texts: line 10 comes before line 9. *)
Definition ex_row (path place rule category priority message : str) : row :=
  map units_of [path; place; rule; category; priority; message].
Definition ex_heading : row := [].
Definition ex_nine := ex_row $"a.c" $"9:1" $"goto statement" $"basic" $"3" $"m".
Definition ex_ten := ex_row $"a.c" $"10:1" $"goto statement" $"basic" $"3" $"m".
Theorem c132_lines_in_order_refuted :
  click (fun u => u) 1 [ex_heading; ex_nine; ex_ten] [ex_heading; ex_ten; ex_nine].
Proof. exists 3. intros [|[|[|fuel]]] F; try lia. reflexivity. Qed.

(** A concrete table: by file, again, and by message. *)
Definition ex_lower (u : units) : units := map (fun x => if (65 <=? x) && (x <=? 90) then x + 32 else x) u.
Definition ex_a := ex_row $"a.c" $"1:1" $"goto statement" $"basic" $"3" $"m".
Definition ex_b := ex_row $"B.c" $"1:1" $"long line" $"size" $"3" $"m".
Definition ex_c := ex_row $"c.c" $"1:1" $"compiler error" $"" $"error" $"k".
Example c132_case :
  Forall (fun r => 0 < length r) [ex_c; ex_b; ex_a]
  /\ ~ ascending (text_in ex_lower 0) [ex_c; ex_b; ex_a]
  /\ click ex_lower 0 [ex_heading; ex_c; ex_b; ex_a] [ex_heading; ex_a; ex_b; ex_c]
  /\ click ex_lower 0 [ex_heading; ex_a; ex_b; ex_c] [ex_heading; ex_c; ex_b; ex_a]
  /\ click ex_lower 5 [ex_heading; ex_b; ex_a; ex_c] [ex_heading; ex_c; ex_b; ex_a].
Proof.
  split; [repeat constructor; simpl; lia|]. split.
  { intros H. inversion H; subst. inversion H3; subst. apply not_after_less in H4. vm_compute in H4. discriminate. }
  repeat split; exists 9; intros fuel F; do 9 (destruct fuel as [|fuel]; [lia|]); reflexivity.
Qed.

Print Assumptions c132_click_sorts.
Print Assumptions c132_click_unique.
Print Assumptions c132_second_click.
Print Assumptions c132_report_sorts.
Print Assumptions c132_lines_in_order_refuted.
