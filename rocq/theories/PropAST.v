(** * Properties C47-C51 and C53: the visitor and the metrics *)
From Verif Require Import Base BaseFacts ModelAST SpecFilter ProofFilter SpecAST ProofAST.
Local Arguments lit : simpl never.

(** Small trees for the examples: [nd k s] is a node numbered [k]. *)
Definition nd (i : nat) (s : shape node) : node := Node i [] s.
Definition var (i : nat) : node := nd i (DeclRefExpr 0 $"a" false).
(** [{ if (a && (b ? c : d)) { foo; } else for (;;) while (a) ; }] *)
Definition ex_body : node :=
  nd 1 (CompoundStmt [nd 2 (IfStmt []
    (nd 3 (BinaryOperator BO_LAnd (var 4) (nd 5 (ParenExpr (nd 6 (ConditionalOperator (var 7) (var 8) (var 9)))))))
    (nd 10 (CompoundStmt [var 11]))
    (Some (nd 12 (ForStmt None [] None None (nd 13 (WhileStmt [] (var 14) (nd 15 NullStmt)))))))]).
Definition ex_fun : node :=
  nd 0 (FunctionDecl {| f_name := $"f"; f_method := None; f_isDefinition := true; f_bodyLines := 3 |}
          [] (Some ex_body)).

(** ** C53 *)
(** A visitor that never asks to stop sees every node of the tree, one after the other. *)
Theorem c53_every_node_in_order : forall (S : Type) (visit : node -> S -> bool * S) n s,
  (forall m s', below n m -> fst (visit m s') = true) ->
  traverse visit n s = (true, fold_left (fun s' m => snd (visit m s')) (nodes n) s).
Proof.
  intros S visit n s H. rewrite traverse_nodes. apply visit_all_true. intros m s' Hm. apply H. now apply in_nodes.
Qed.
(** In general it sees them up to the first where it asks to stop. *)
Theorem c53_until_stopped : forall (S : Type) (visit : node -> S -> bool * S) n s,
  traverse visit n s = visit_all visit (nodes n) s.
Proof. intros. apply traverse_nodes. Qed.
(** That list is the depth-first enumeration of the tree ... *)
Theorem c53_depth_first : forall n l, spread kids n l <-> l = nodes n.
Proof. apply spread_kids. Qed.
(** ... and contains exactly what lies in the tree. *)
Theorem c53_nodes_complete : forall n m, In m (nodes n) <-> below n m.
Proof. apply in_nodes. Qed.
(** No part of a node is left out of the traversal, but the body of a function declaration that is
    not the definition: what a node is made of is determined by its children. *)
Theorem c53_no_part_forgotten : forall (A B : Type) (f g : A -> B) s,
  (forall x, In x (children s) -> f x = g x) ->
  (forall fi ps b, s = FunctionDecl fi ps (Some b) -> f_isDefinition fi = true) ->
  shape_map f s = shape_map g s.
Proof.
  intros A B f g s H D.
  assert (O : forall o : option A, (forall x, In x (opt o) -> f x = g x) -> option_map f o = option_map g o).
  { intros [a|] K; cbn; [|reflexivity]. now rewrite (K a) by (left; reflexivity). }
  assert (L : forall l : list A, (forall x, In x l -> f x = g x) -> map f l = map g l) by (intros; now apply map_ext_in).
  destruct s; cbn [shape_map children] in *; try reflexivity;
    try (assert (Hb : f_isDefinition info = true \/ body = None)
           by (destruct body as [b|]; [left; eapply D; reflexivity|right; reflexivity]));
    f_equal; try apply L; try apply O; try apply H; intros;
    try apply H; rewrite ?in_app_iff; simpl; rewrite ?in_app_iff; simpl; auto 10.
  destruct Hb as [Hb| ->]; [rewrite Hb; auto|]. match goal with K : In _ (opt None) |- _ => destruct K end.
Qed.
Theorem c53_shape_map_identity : forall (A : Type) (s : shape A), shape_map (fun x => x) s = s.
Proof.
  intros A s.
  assert (O : forall o : option A, option_map (fun x => x) o = o) by now intros [a|].
  destruct s; cbn [shape_map]; rewrite ?map_id, ?O; reflexivity.
Qed.
Example c53_case :
  traverse (fun m acc => (true, acc ++ [n_id m])) ex_fun [] = (true, [0; 1; 2; 3; 4; 5; 6; 7; 8; 9; 10; 11; 12; 13; 14; 15])
  /\ traverse (fun m acc => (negb (n_id m =? 3), acc ++ [n_id m])) ex_fun [] = (false, [0; 1; 2; 3]).
Proof. split; reflexivity. Qed.
Print Assumptions c53_every_node_in_order.
Print Assumptions c53_depth_first.

(** ** C47 *)
Theorem c47_counts_decision_points : forall d, exists sel,
  sublist_where decision_point (nodes d) sel
  /\ getCyclomaticComplexity d = (1 + Z.of_nat (length sel))%Z.
Proof.
  intros d. destruct (sublist_exists decision_point) with (l := nodes d) as (sel & H).
  { intros x. destruct (ccn_visit_spec x) as [[_ ?]|[_ ?]]; auto. }
  exists sel. split; auto. rewrite ccn_nodes, (ccn_count _ _ H). reflexivity.
Qed.
Theorem c47_at_least_one : forall d, (1 <= getCyclomaticComplexity d)%Z.
Proof. intros. rewrite ccn_nodes. lia. Qed.
(** Nesting adds up: the decisions of a tree are its own and those of its sub-trees. *)
Theorem c47_nesting_adds_up : forall n,
  (decision_point n ->
     getCyclomaticComplexity n = 2 + sum (map (fun c => getCyclomaticComplexity c - 1) (kids n)))%Z
  /\ (~ decision_point n ->
     getCyclomaticComplexity n = 1 + sum (map (fun c => getCyclomaticComplexity c - 1) (kids n)))%Z.
Proof.
  intros n.
  assert (E : getCyclomaticComplexity n
    = (1 + Z.of_nat (ccn_visit n) + sum (map (fun c => getCyclomaticComplexity c - 1) (kids n)))%Z).
  { rewrite ccn_nodes, nodes_eq. cbn [map list_sum fold_right].
    enough (Z.of_nat (list_sum (map ccn_visit (flat_map nodes (kids n))))
            = sum (map (fun c => getCyclomaticComplexity c - 1)%Z (kids n))) as <-.
    { unfold list_sum. lia. }
    induction (kids n) as [|a l IH]; [reflexivity|].
    cbn [flat_map map sum fold_right]. rewrite map_app, list_sum_app, Nat2Z.inj_add, IH, ccn_nodes. unfold sum. lia. }
  destruct (ccn_visit_spec n) as [[V D]|[V D]]; rewrite V in E; split; intros; try contradiction; rewrite E; lia.
Qed.
Theorem c47_monotone : forall n m, below n m -> (getCyclomaticComplexity m <= getCyclomaticComplexity n)%Z.
Proof.
  intros n m H. rewrite !ccn_nodes. apply Zplus_le_compat_l, Nat2Z.inj_le.
  induction H as [|n c m Hc Hb IH]; auto. etransitivity; [exact IH|].
  rewrite (nodes_eq n). cbn [map list_sum fold_right]. fold (list_sum (map ccn_visit (flat_map nodes (kids n)))).
  etransitivity; [|apply Nat.le_add_l]. clear -Hc. induction (kids n) as [|a l IH]; [destruct Hc|].
  cbn [flat_map]. rewrite map_app, list_sum_app. destruct Hc as [->|Hc]; [lia|]. specialize (IH Hc). lia.
Qed.
(** Labels, else branches, range-based loops, switches and defaults are no decisions. *)
Theorem c47_not_counted : forall i t sh,
  match sh with
  | SwitchStmt _ _ _ _ | DefaultStmt _ | LabelStmt _ _ | CXXForRangeStmt _ _ _ _ | CXXTryStmt _ _
  | ObjCAtTryStmt _ _ _ | GotoStmt _ | ReturnStmt _ => True
  | _ => False
  end -> ~ decision_point (Node i t sh).
Proof. intros i t sh H D. destruct sh; try contradiction; inversion D. Qed.
Example c47_case : getCyclomaticComplexity ex_fun = 6%Z /\ decision_point (nd 13 (WhileStmt [] (var 14) (nd 15 NullStmt))).
Proof. split; [reflexivity|constructor]. Qed.
Print Assumptions c47_counts_decision_points.
Print Assumptions c47_nesting_adds_up.
Print Assumptions c47_monotone.

(** ** C48 *)
(** Whenever the computation stays within int, it gives the number of the recurrences. *)
Theorem c48_follows_recurrences : forall n v, nPath n = Val v -> paths n v.
Proof. intros n v H. apply paths_iff. now apply nPath_val. Qed.
(** The recurrences define one number for every statement, and it is not negative. *)
Theorem c48_recurrences_define_one_number : forall n, exists v, paths n v /\ (0 <= v)%Z /\ forall w, paths n w -> w = v.
Proof.
  intros n. exists (npZ n). split; [apply paths_intro|]. split; [apply npZ_nonneg|]. apply paths_npZ.
Qed.
Theorem c48_straight_line_is_one : forall i t l,
  (forall x, In x l -> ~ branching x) -> nPath (Node i t (CompoundStmt l)) = Val 1%Z.
Proof.
  intros i t l H. cbn [nPath]. assert (E : forall x, In x l -> nPath x = Val 1%Z).
  { intros [j u s] Hx. specialize (H _ Hx). destruct s; cbn in *; try reflexivity; tauto. }
  clear H. induction l as [|a l IH]; [reflexivity|]. cbn [map fold_left]. rewrite (E a) by (simpl; auto).
  change (Val 1%Z *! Val 1%Z) with (@Val Z 1%Z). apply IH. intros; apply E; simpl; auto.
Qed.
Example c48_case : nPath ex_body = Val 8%Z /\ nPath (nd 0 (SwitchStmt [] (var 1) (nd 2 (CompoundStmt
    [nd 3 (CaseStmt (var 4) ex_body); nd 5 BreakStmt; nd 6 (DefaultStmt ex_body); ex_body; ex_body])) false)) = Val 520%Z.
Proof. split; reflexivity. Qed.
Print Assumptions c48_follows_recurrences.
Print Assumptions c48_recurrences_define_one_number.
Print Assumptions c48_straight_line_is_one.

(** ** C49 *)
(** A switch without case label directly in its braces, on a plain condition, zeroes every
    block it is in. *)
Theorem c49_unlabelled_switch_zeroes_block : forall i t l v,
  (exists j u pre c k w b cov,
     In (Node j u (SwitchStmt pre c (Node k w (CompoundStmt b)) cov)) l
     /\ condition_operators c 0 /\ (forall x, In x b -> ~ case_label x)) ->
  nPath (Node i t (CompoundStmt l)) = Val v -> v = 0%Z.
Proof.
  intros i t l v (j & u & pre & c & k & w & b & cov & Hin & Hc & Hb) H.
  apply nPath_val in H. cbn [npZ] in H. subst v.
  assert (Z0 : npZ (Node j u (SwitchStmt pre c (Node k w (CompoundStmt b)) cov)) = 0%Z).
  { cbn [npZ]. apply condition_operators_exZ in Hc. rewrite <- Hc. apply groups_prefix. auto using not_case. }
  apply in_split in Hin as (l1 & l2 & ->). rewrite map_app, product_app. cbn [map].
  unfold product at 2. cbn [fold_right]. rewrite Z0. ring.
Qed.
Definition ex_empty_switch := nd 20 (SwitchStmt [] (var 21) (nd 22 (CompoundStmt [])) false).
Theorem c49_npath_at_least_one_refuted : exists n, nPath n = Val 0%Z /\ (6 < getCyclomaticComplexity n)%Z.
Proof. exists (nd 30 (CompoundStmt [ex_body; ex_empty_switch; ex_body])). split; reflexivity. Qed.
(** Without such switches it is at least one. *)
Theorem c49_positive_when_switches_labelled : forall n v,
  switches_labelled n -> nPath n = Val v -> (1 <= v)%Z.
Proof. intros n v H E. apply nPath_val in E. subst. now apply npZ_positive. Qed.
(** int suffices exactly as long as the number itself fits (for switches whose braces start
    with a label); else the computation is undefined. *)
Theorem c49_overflow_exactly_when_too_large : forall n v,
  switches_start_with_label n -> paths n v ->
  ((v <= INT_MAX)%Z -> nPath n = Val v) /\ ((INT_MAX < v)%Z -> nPath n = UB).
Proof.
  intros n v H P. apply paths_npZ in P. subst. rewrite nPath_exact by auto.
  rewrite to_int_iff by apply npZ_nonneg. split; intros K.
  - now rewrite (proj2 (Z.leb_le _ _)).
  - now rewrite (proj2 (Z.leb_gt _ _)).
Qed.
(** Thirty-one two-way statements in a row overflow, thirty do not. *)
Theorem c49_two_way_statements : forall i t l,
  (forall x, In x l -> nPath x = Val 2%Z) ->
  (length l <= 30 -> nPath (Node i t (CompoundStmt l)) = Val (2 ^ Z.of_nat (length l))%Z)
  /\ (30 < length l -> nPath (Node i t (CompoundStmt l)) = UB).
Proof.
  intros i t l H. cbn [nPath].
  assert (G : forall l k, (forall x, In x l -> nPath x = Val 2%Z) ->
    fold_left imul (map nPath l) (to_int (2 ^ Z.of_nat k)) = to_int (2 ^ Z.of_nat (k + length l))).
  { clear. induction l as [|a l IH]; intros k H; cbn [map fold_left length]; [now rewrite Nat.add_0_r|].
    rewrite (H a) by (simpl; auto). change (Val 2%Z) with (to_int 2).
    rewrite imul_to_int; [|pose proof (Z.pow_pos_nonneg 2 (Z.of_nat k)); lia|lia].
    replace (2 ^ Z.of_nat k * 2)%Z with (2 ^ Z.of_nat (S k))%Z
      by (rewrite Nat2Z.inj_succ, Z.pow_succ_r by lia; ring).
    rewrite IH by (intros; apply H; simpl; auto). do 3 f_equal. lia. }
  change (Val 1%Z) with (to_int (2 ^ Z.of_nat 0)). rewrite (G l 0 H). cbn [Nat.add].
  rewrite to_int_iff by (apply Z.pow_nonneg; lia). split; intros K.
  - rewrite (proj2 (Z.leb_le _ _)); auto. change INT_MAX with (2 ^ 31 - 1)%Z.
    pose proof (Z.pow_le_mono_r 2 (Z.of_nat (length l)) 30). lia.
  - rewrite (proj2 (Z.leb_gt _ _)); auto. change INT_MAX with (2 ^ 31 - 1)%Z.
    pose proof (Z.pow_le_mono_r 2 31 (Z.of_nat (length l))). lia.
Qed.
Definition ex_two_way := nd 40 (IfStmt [] (var 41) (nd 42 NullStmt) None).
Example c49_case : nPath ex_two_way = Val 2%Z /\ nPath (nd 43 (CompoundStmt (repeat ex_two_way 31))) = UB
  /\ nPath (nd 43 (CompoundStmt (repeat ex_two_way 30))) = Val 1073741824%Z
  /\ switches_start_with_label ex_body.
Proof.
  split; [reflexivity|]. split; [reflexivity|]. split; [reflexivity|].
  intros i t pre c j t' l cov B. apply in_nodes in B. cbn in B.
  repeat destruct B as [B|B]; try discriminate B. destruct B.
Qed.
Print Assumptions c49_unlabelled_switch_zeroes_block.
Print Assumptions c49_npath_at_least_one_refuted.
Print Assumptions c49_positive_when_switches_labelled.
Print Assumptions c49_overflow_exactly_when_too_large.
Print Assumptions c49_two_way_statements.

(** ** C50 *)
Theorem c50_counts_each_statement : forall n,
  exists l, spread controlled n l /\ ncss n = sum (map own_ncss l).
Proof.
  intros n. destruct (spread_total controlled controlled_kids n) as (l & H). exists l. split; auto.
  eapply spread_weight; eauto using controlled_kids, ncss_eq.
Qed.
(** There is only one such enumeration. *)
Theorem c50_enumeration_unique : forall n l1 l2, spread controlled n l1 -> spread controlled n l2 -> l1 = l2.
Proof. apply spread_det, controlled_kids. Qed.
Theorem c50_function_count : forall d,
  (forall b, getBody d = Some b -> getNcssCount d = ncss b + 1)%Z /\ (getBody d = None -> getNcssCount d = 0%Z).
Proof. intros d. unfold getNcssCount. split; intros; now rewrite H. Qed.
Theorem c50_additive_over_blocks : forall i t l1 l2 j u k w,
  (ncss (Node i t (CompoundStmt (l1 ++ l2)))
   = ncss (Node j u (CompoundStmt l1)) + ncss (Node k w (CompoundStmt l2)))%Z.
Proof. intros. cbn [ncss]. rewrite !fold_add_sum, map_app, sum_app. lia. Qed.
Theorem c50_not_negative : forall d, (0 <= getNcssCount d)%Z.
Proof.
  intros d. unfold getNcssCount. destruct (getBody d) as [b|]; [|lia].
  destruct (c50_counts_each_statement b) as (l & _ & ->).
  assert (0 <= sum (map own_ncss l))%Z; [|lia]. apply sum_ge0. intros x Hx.
  apply in_map_iff in Hx as (m & <- & _). apply own_ncss_nonneg.
Qed.
(** Finding: the bodies of range-based for loops and of labelled statements are not counted. *)
Theorem c50_every_substatement_counted_refuted : exists n m,
  In m (kids n) /\ (ncss n < ncss m)%Z.
Proof.
  exists (nd 0 (CXXForRangeStmt None (var 1) (var 2) (nd 3 (CompoundStmt [var 4; var 5])))), (nd 3 (CompoundStmt [var 4; var 5])).
  split; [right; right; left; reflexivity|reflexivity].
Qed.
Theorem c50_range_for_counts_one : forall i t init v r b, ncss (Node i t (CXXForRangeStmt init v r b)) = 1%Z.
Proof. reflexivity. Qed.
Theorem c50_label_counts_one : forall i t l s, ncss (Node i t (LabelStmt l s)) = 1%Z.
Proof. reflexivity. Qed.
Example c50_case : getNcssCount ex_fun = 6%Z.
Proof. reflexivity. Qed.
Print Assumptions c50_counts_each_statement.
Print Assumptions c50_not_negative.

(** ** C51 *)
Theorem c51_depth_is_maximal_nesting : forall n,
  (exists p, control_path n p /\ braces p = depth n) /\ forall p, control_path n p -> braces p <= depth n.
Proof. intros n. split; [apply depth_reached | apply depth_bound]. Qed.
Theorem c51_one_per_block : forall i t l x, In x l -> depth x < depth (Node i t (CompoundStmt l)).
Proof.
  intros i t l x Hx. rewrite (depth_eq (Node i t (CompoundStmt l))). cbn [is_brace n_shape controlled].
  assert (depth x <= list_max (map depth l)) by (apply list_max_ge, in_map, Hx). lia.
Qed.
Theorem c51_exactly_one_more : forall i t l d,
  (forall x, In x l -> depth x <= d) -> (exists x, In x l /\ depth x = d) ->
  depth (Node i t (CompoundStmt l)) = S d.
Proof.
  intros i t l d Hle (x & Hx & <-). rewrite depth_eq. cbn [is_brace n_shape controlled].
  assert (depth x <= list_max (map depth l)) by (apply list_max_ge, in_map, Hx).
  assert (list_max (map depth l) <= depth x).
  { apply list_max_le. apply Forall_forall. intros y Hy. apply in_map_iff in Hy as (z & <- & Hz). auto. }
  lia.
Qed.
Theorem c51_monotone : forall n m, In m (controlled n) -> depth m <= depth n.
Proof.
  intros n m H. rewrite (depth_eq n). assert (depth m <= list_max (map depth (controlled n))) by (apply list_max_ge, in_map, H).
  lia.
Qed.
(** Finding: braces inside range-based for loops and labelled statements are not seen. *)
Theorem c51_every_brace_counts_refuted : exists n m, below n m /\ depth n < depth m.
Proof.
  exists (nd 0 (CXXForRangeStmt None (var 1) (var 2) (nd 3 (CompoundStmt [])))), (nd 3 (CompoundStmt [])).
  split; [eapply below_child; [right; right; left; reflexivity|constructor]|]. unfold lt. reflexivity.
Qed.
Example c51_case : depth ex_body = 2 /\ exists p, control_path ex_body p /\ braces p = 2.
Proof.
  split; [reflexivity|]. exists [ex_body; nth 0 (controlled ex_body) ex_body; nd 10 (CompoundStmt [var 11])].
  split; [|reflexivity]. unfold ex_body. cbn. eapply cp_step; [left; reflexivity|].
  eapply cp_step; [left; reflexivity|]. constructor.
Qed.
Print Assumptions c51_depth_is_maximal_nesting.
Print Assumptions c51_every_brace_counts_refuted.
Print Assumptions c53_no_part_forgotten.
Print Assumptions c53_shape_map_identity.
