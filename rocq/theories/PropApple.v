(** * Suppressing comments on Apple systems: C129 *)
From Verif Require Import Base BaseFacts ModelResults ModelConfig ModelSource ModelApple SpecSource SpecApple ProofSource.
Local Arguments lit : simpl never.

(** ** Proofs *)
Lemma lower_upper x : tolower (toupper x) = tolower x.
Proof. now destruct x as [[] [] [] [] [] [] [] []]. Qed.
Lemma upper_lower x : toupper (tolower x) = toupper x.
Proof. now destruct x as [[] [] [] [] [] [] [] []]. Qed.
Lemma nocase_iff a b : same_nocase a b = true <-> toupper b = toupper a.
Proof.
  unfold same_nocase. rewrite ascii_eqb_eq. split; intros H.
  - now rewrite <- (upper_lower a), <- (upper_lower b), H.
  - now rewrite <- (lower_upper a), <- (lower_upper b), H.
Qed.
Lemma bre_at_many c ps s : bre_at (Many c :: ps) s
  = bre_at ps s || match s with x :: s' => same_nocase c x && bre_at (Many c :: ps) s' | [] => false end.
Proof. destruct s; reflexivity. Qed.
Lemma denotes_many_inv c ps m : denotes (Many c :: ps) m ->
  exists w s, m = w ++ s /\ (forall x, In x w -> toupper x = toupper c) /\ denotes ps s.
Proof. intros H. inversion H; subst. eauto. Qed.
Lemma bre_at_iff ps : forall s, bre_at ps s = true <-> exists m rest, s = m ++ rest /\ denotes ps m.
Proof.
  induction ps as [|[c|c] ps IH]; intros s.
  - cbn. split; auto. intros _. exists [], s. split; auto. constructor.
  - cbn [bre_at]. split.
    + destruct s as [|x s]; [discriminate|]. intros H. apply andb_true_iff in H as [A B].
      apply IH in B as (m & rest & -> & D). exists (x :: m), rest. split; auto. constructor; auto. now apply nocase_iff.
    + intros (m & rest & -> & D). inversion D; subst. cbn. apply andb_true_iff. split; [now apply nocase_iff|]. apply IH. eauto.
  - induction s as [|x s IHs]; rewrite bre_at_many.
    + rewrite orb_false_r, IH. split.
      * intros (m & rest & E & D). exists m, rest. split; auto. change m with ([] ++ m). constructor; auto. intros x [].
      * intros (m & rest & E & D). apply denotes_many_inv in D as (w & t & -> & _ & D). destruct w; [|discriminate E]. cbn in E. eauto.
    + rewrite orb_true_iff, IH, andb_true_iff, IHs, nocase_iff. split.
      * intros [(m & rest & E & D)|(A & m & rest & -> & D)].
        -- exists m, rest. split; auto. change m with ([] ++ m). constructor; auto. intros y [].
        -- apply denotes_many_inv in D as (w & t & -> & W & D). exists ((x :: w) ++ t), rest. split; [now rewrite !app_comm_cons|].
           constructor; auto. intros y [<-|Hy]; auto.
      * intros (m & rest & E & D). apply denotes_many_inv in D as (w & t & -> & W & D). destruct w as [|y w].
        -- left. cbn in E. eauto.
        -- right. cbn in E. apply (f_equal (fun l => (hd x l, tl l))) in E. cbn in E.
           assert (y = x) as -> by congruence. assert (Es : s = (w ++ t) ++ rest) by congruence. clear E.
           split; [apply W; now left|]. exists (w ++ t), rest. split; auto. constructor; auto. intros z Hz. apply W. now right.
Qed.
Lemma bre_search_iff ps s : bre_search ps s = true <-> exists a m b, s = a ++ m ++ b /\ denotes ps m.
Proof.
  induction s as [|x s IH]; cbn [bre_search]; rewrite orb_true_iff, bre_at_iff.
  - split.
    + intros [(m & rest & E & D)|H]; [|discriminate]. exists [], m, rest. auto.
    + intros (a & m & b & E & D). left. destruct a; [|discriminate E]. cbn in E. eauto.
  - rewrite IH. split.
    + intros [(m & rest & E & D)|(a & m & b & -> & D)].
      * exists [], m, rest. auto.
      * exists (x :: a), m, b. auto.
    + intros (a & m & b & E & D). destruct a as [|y a].
      * left. cbn in E. eauto.
      * right. cbn in E. exists a, m, b. split; auto. congruence.
Qed.
Lemma denotes_word w : forall s, denotes (map One w) s <-> same_letters s w.
Proof.
  unfold same_letters. induction w as [|c w IH]; intros s; split.
  - intros H. inversion H. reflexivity.
  - destruct s; [constructor|discriminate].
  - intros H. inversion H; subst. cbn. f_equal; auto. now apply IH.
  - destruct s as [|x s]; [discriminate|]. cbn. intros H. injection H as A B. constructor; auto. now apply IH.
Qed.
Lemma denotes_app p q s : denotes (p ++ q) s <-> exists a b, s = a ++ b /\ denotes p a /\ denotes q b.
Proof.
  revert s. induction p as [|[c|c] p IH]; intros s; cbn [app]; split.
  - intros H. exists [], s. repeat split; auto. constructor.
  - intros (a & b & -> & A & B). now inversion A.
  - intros H. inversion H; subst. apply IH in H4 as (a & b & -> & A & B). exists (x :: a), b. repeat split; auto. now constructor.
  - intros (a & b & -> & A & B). inversion A; subst. cbn. constructor; auto. apply IH. eauto.
  - intros H. apply denotes_many_inv in H as (w & t & -> & W & D). apply IH in D as (a & b & -> & A & B). exists (w ++ a), b. rewrite app_assoc. repeat split; auto. now constructor.
  - intros (a & b & -> & A & B). apply denotes_many_inv in A as (w & t & -> & W & D). rewrite <- app_assoc. constructor; auto. apply IH. eauto.
Qed.
Lemma upper_space x : toupper x = toupper " "%char -> x = " "%char.
Proof. destruct x as [[] [] [] [] [] [] [] []]; vm_compute; congruence. Qed.
Lemma upper_slashes w : same_letters w $"//!" -> w = $"//!".
Proof.
  unfold same_letters. destruct w as [|a [|b [|c [|d w]]]]; vm_compute (map _ _); intros H; try discriminate H.
  cbn [map] in H. injection H as A B C.
  assert (S1 : forall x, toupper x = "/"%char -> x = "/"%char) by (intros [[] [] [] [] [] [] [] []]; vm_compute; congruence).
  assert (S2 : forall x, toupper x = "!"%char -> x = "!"%char) by (intros [[] [] [] [] [] [] [] []]; vm_compute; congruence).
  rewrite (S1 _ A), (S1 _ B), (S2 _ C). reflexivity.
Qed.
Lemma regex_pieces : oclintRegex = map One $"//!" ++ Many " "%char :: map One $"OCLINT".
Proof. reflexivity. Qed.
Lemma spaces_repeat w : (forall x, In x w -> toupper x = toupper " "%char) -> w = repeat " "%char (length w).
Proof.
  induction w as [|x w IH]; intros H; auto. cbn. f_equal.
  - apply upper_space. apply H. now left.
  - apply IH. intros y Hy. apply H. now right.
Qed.

(** ** C129 *)
(** A comment counts on Apple systems exactly if it contains "//!", spaces, and "OCLINT" in
    any mixture of cases. *)
Theorem c129_recognised : forall text, recognised_apple text = true <-> apple_marker text.
Proof.
  intros text. unfold recognised_apple. rewrite bre_search_iff, regex_pieces. unfold apple_marker. split.
  - intros (a & m & b & -> & D). apply denotes_app in D as (p & q & -> & P & Q).
    apply denotes_word, upper_slashes in P. subst p. apply denotes_many_inv in Q as (w & s & -> & W & D).
    exists a, (length w), s, b. split.
    + rewrite <- (spaces_repeat w) by auto. now rewrite <- !app_assoc.
    + now apply denotes_word.
  - intros (a & n & w & b & -> & S). exists a, ($"//!" ++ repeat " "%char n ++ w), b. split; [now rewrite <- !app_assoc|].
    apply denotes_app. exists $"//!", (repeat " "%char n ++ w). repeat split.
    + apply denotes_word. reflexivity.
    + constructor; [|now apply denotes_word]. intros x Hx. now apply repeat_spec in Hx as ->.
Qed.
Example c129_case : apple_marker $"int x; //!   oclint:unused" /\ ~ apple_marker $"// OCLINT" /\ ~ apple_marker $"/*! OCLINT */".
Proof.
  split; [|split].
  - exists $"int x; ", 3, $"oclint", $":unused". split; reflexivity.
  - intros H. apply c129_recognised in H. vm_compute in H. discriminate.
  - intros H. apply c129_recognised in H. vm_compute in H. discriminate.
Qed.
Print Assumptions c129_recognised.

(** The lines hidden in a file not seen before are those with such a comment. *)
Lemma commentLines_apple_in u line : In line (commentLines_apple u) <-> comment_on_apple u line.
Proof.
  unfold commentLines_apple, comment_on_apple. destruct (u_comments u) as [l|].
  2:{ split; [intros []|]. intros (l & c & H & _). discriminate. }
  rewrite in_flat_map. split.
  - intros ([c|] & Hc & Hl); [|destruct Hl]. destruct (recognised_apple (cm_text c)) eqn:E; [|destruct Hl].
    destruct Hl as [<-|[]]. exists l, c. repeat split; auto. now apply c129_recognised.
  - intros (l' & c & [= <-] & Hc & <- & M). exists (Some c). split; auto. apply c129_recognised in M. rewrite M. now left.
Qed.
Theorem c129_hides_its_line : forall line u sc, lookup (sc_lines sc) (u_path u) = None ->
  (fst (shouldSuppress_line_apple line u None sc) = true <-> comment_on_apple u line).
Proof.
  intros line u sc E. unfold shouldSuppress_line_apple, lineBasedShouldSuppress_apple. rewrite E.
  rewrite <- commentLines_apple_in, <- existsb_Zeqb.
  destruct (existsb (Z.eqb line) (commentLines_apple u)); cbn; split; congruence.
Qed.

(** What is hidden elsewhere is hidden on Apple systems too ... *)
Theorem c129_hides_at_least_as_much : forall u line, comment_on u line -> comment_on_apple u line.
Proof.
  intros u line (l & c & E & I & L & a & b & T). exists l, c. repeat split; auto.
  exists a, 0, $"OCLINT", b. split; [exact T|reflexivity].
Qed.
(** ... but not conversely: the same source has different violations on different systems. *)
Theorem c129_same_everywhere_refuted : exists u l rule message,
  fst (addViolation_loc u l rule message [] sc_fresh) <> [] /\ fst (addViolation_loc_apple u l rule message [] sc_fresh) = [].
Proof.
  exists {| u_path := $"a.m"; u_content := []; u_comments := Some [Some {| cm_text := $"//! OCLint"; cm_line := 3 |}]; u_top := [] |},
    {| l_path := $"a.m"; l_line := 3; l_column := 1; l_endLine := 3; l_endColumn := 9 |}, 0, $"m".
  split; vm_compute; [discriminate|reflexivity].
Qed.

(** Apart from that the systems agree: on Apple systems every question is answered, and every
    violation recorded, as elsewhere for the source with its comments rewritten.  So what is
    proved of the program for all units holds there of the rewritten units. *)
Lemma rewritten_lines u u' : rewritten u u' -> commentLines_apple u = commentLines u'.
Proof.
  intros (_ & _ & _ & H). unfold commentLines_apple, commentLines.
  destruct (u_comments u) as [l|], (u_comments u') as [l'|]; try contradiction; auto.
  induction H as [|[c|] [c'|] l l' R _ IH]; cbn [flat_map]; try contradiction; auto.
  destruct R as [L M]. rewrite <- c129_recognised in M. rewrite IH, L.
  destruct (find_sub $"//!OCLINT" (cm_text c')) as [n|] eqn:F.
  - destruct (find_sub_some _ _ _ F) as (a & b & Eq & _). assert (R : recognised_apple (cm_text c) = true) by (apply M; eauto).
    now rewrite R.
  - destruct (recognised_apple (cm_text c)) eqn:R; [|reflexivity]. exfalso.
    destruct (proj1 M eq_refl) as (a & b & E). exact (proj1 (find_sub_none _ _) F a b E).
Qed.
Theorem c129_otherwise_alike : forall u u' line rule l k message vs sc, rewritten u u' ->
  shouldSuppress_line_apple line u rule sc = shouldSuppress_line line u' rule sc
  /\ addViolation_loc_apple u l k message vs sc = addViolation_loc u' l k message vs sc.
Proof.
  intros u u' line rule l k message vs sc R.
  assert (H : forall line rule, shouldSuppress_line_apple line u rule sc = shouldSuppress_line line u' rule sc).
  { intros ln [r|]; unfold shouldSuppress_line_apple, shouldSuppress_line, lineBasedShouldSuppress_apple, lineBasedShouldSuppress,
      rangeBasedShouldSuppress, collectRanges; rewrite (rewritten_lines _ _ R); destruct R as (E1 & _ & E2 & _); rewrite ?E1, ?E2; reflexivity. }
  split; auto. unfold addViolation_loc_apple, addViolation_loc. now rewrite H.
Qed.
Theorem c129_can_be_rewritten : forall u, exists u', rewritten u u'.
Proof.
  intros u. exists {| u_path := u_path u; u_content := u_content u; u_top := u_top u;
    u_comments := option_map (map (option_map (fun c => {| cm_line := cm_line c;
      cm_text := if recognised_apple (cm_text c) then $"//!OCLINT" else [] |}))) (u_comments u) |}.
  repeat split. cbn [u_comments]. destruct (u_comments u) as [l|]; cbn; auto.
  induction l as [|[c|] l IH]; cbn; constructor; auto. cbn. split; auto. rewrite <- c129_recognised.
  destruct (recognised_apple (cm_text c)); split; intros H; auto; try discriminate.
  - exists [], []. reflexivity.
  - destruct H as (a & b & E). apply (f_equal (@length _)) in E. rewrite !app_length in E. change (length $"//!OCLINT") with 9 in E. cbn [length] in E. lia.
Qed.
Print Assumptions c129_hides_its_line.
Print Assumptions c129_same_everywhere_refuted.
Print Assumptions c129_otherwise_alike.
Print Assumptions c129_can_be_rewritten.
