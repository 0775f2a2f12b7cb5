(** * Theorems C73, C107: the generated rule documentation *)
From Verif Require Import Base BaseFacts ModelResults ModelConfig ModelFilter ModelOptions ModelMain
  ModelSource SpecSource ProofSource PropSource ModelDocgen SpecDocgen ProofDocgen.
From Coq Require Import Permutation Sorting.Sorted Lia.
Local Arguments lit : simpl never.

(** ** C73

    [pages] are the categories with their rules: categories strictly ascending, every loaded
    rule on exactly one page (with multiplicity), the one of its category, ascending by
    identifier; the index counts the rules and lists the pages; the files have exactly these
    texts; no other file is touched. *)
Definition well_documented (rules : list docrule) (pages : list (str * list docrule)) : Prop :=
  StronglySorted before (map fst pages)
  /\ Permutation (concat (map snd pages)) rules
  /\ (forall c page, In (c, page) pages ->
        page <> [] /\ (forall r, In r page -> d_category r = c)
        /\ StronglySorted not_after (map d_identifier page)).

Lemma separate_index resolve rules : rules <> [] -> separate_outputs resolve rules ->
  exists fi, resolve index_path = Some fi
    /\ forall r, In r rules -> exists f, resolve (page_path (d_category r)) = Some f /\ f <> fi.
Proof.
  intros NE (H1 & H2 & H3). destruct (resolve index_path) as [fi|] eqn:E.
  - exists fi. split; auto. intros r I.
    destruct (resolve (page_path (d_category r))) as [f|] eqn:F.
    + exists f. split; auto. intros ->. apply (H3 r I), page_path_inj.
      change (page_path $"index") with index_path. apply H2; eauto. congruence.
    + destruct (H1 (page_path (d_category r))); eauto.
  - destruct (H1 index_path); auto.
Qed.

Theorem c73_documentation : forall resolve sort_categories sort_rules now rules fs,
  sorts_by (fun c => c) sort_categories -> sorts_by d_identifier sort_rules ->
  rules <> [] -> separate_outputs resolve rules ->
  exists fs' pages,
    docgen resolve sort_categories sort_rules now (rules, Val tt) fs = (fs', [], Exit 0)
    /\ well_documented rules pages
    /\ content resolve fs' index_path
       = Some (index_text (length rules) (map fst pages) (now (length pages)))
    /\ (forall k c page, nth_error pages k = Some (c, page) ->
          content resolve fs' (page_path c) = Some (page_text c page (now k)))
    /\ (forall f, (forall c, In c ($"index" :: map fst pages) -> resolve (page_path c) <> Some f) ->
          fs' f = fs f).
Proof.
  intros resolve sc sr now rules fs Hc Hr NE Sep.
  destruct (separate_index _ _ NE Sep) as (fi & Ri & Rp).
  destruct (group_spec rules) as (G1 & G2 & G3).
  destruct (group rules) as [cs m] eqn:EG. cbn [fst snd] in *.
  destruct (Hc cs) as [Pc Sc]. rewrite map_id in Sc.
  assert (Nc : NoDup (sc cs)) by (apply (Permutation_NoDup (Permutation_sym Pc)); auto).
  assert (Ic : forall c, In c (sc cs) <-> exists r, In r rules /\ d_category r = c).
  { intros c. rewrite <- G2. split; apply Permutation_in; auto using Permutation_sym. }
  set (fs0 := fs_set fs fi []).
  destruct (emits_index_header (Z.of_nat (length rules)) fs0 fi [] (fs_set_same _ _ _))
    as (fs1 & E1 & S1 & O1).
  rewrite app_nil_l in E1, S1.
  destruct (write_categories_spec resolve sr now m fi (sc cs) 0 fs1 _ S1 Nc)
    as (fs2 & E2 & S2 & P2 & O2).
  { intros c I. apply Ic in I as (r & I & <-). auto. }
  { intros c d I J E. apply Ic in I as (r1 & I & <-). apply Ic in J as (r2 & J & <-).
    apply page_path_inj. apply Sep; auto; right; eauto. }
  destruct (emits_footer (now (length (sc cs))) fs2 fi _ S2) as (fs3 & E3 & S3 & O3).
  set (pages := map (fun c => (c, sr (of_category c rules))) (sc cs)).
  assert (Fst : map fst pages = sc cs) by (unfold pages; rewrite map_map; apply map_id).
  exists fs3, pages. split; [|split; [|split; [|split]]].
  - destruct rules as [|r0 rules0] eqn:ER; [congruence|]. rewrite <- ER in *.
    unfold docgen. rewrite ER, <- ER. unfold generate. rewrite EG.
    unfold open_out. change (docRulePath ++ $"index.rst") with index_path. rewrite Ri.
    fold fs0. change {| s_file := Some fi; s_off := 0 |} with (stream_at fi []). rewrite E1.
    rewrite E2, E3. reflexivity.
  - split; [|split].
    + rewrite Fst. now apply sorted_nodup_strict.
    + transitivity (concat (map (fun c => of_category c rules) (sc cs))).
      * unfold pages. rewrite map_map. cbn [snd].
        generalize (sc cs). clear - Hr. intros l0. induction l0 as [|c l IH]; [constructor|]. cbn [map concat].
        apply Permutation_app; [apply Hr|exact IH].
      * apply partition_perm; auto. intros r I. apply Ic. eauto.
    + intros c page I. unfold pages in I. apply in_map_iff in I as (c' & E & I).
      injection E as <- <-. destruct (Hr (of_category c' rules)) as [P S]. split; [|split]; auto.
      * intros E. rewrite E in P. apply Permutation_nil in P.
        apply Ic in I as (r & I & X).
        assert (In r (of_category c' rules)) by (apply filter_In; split; auto; apply str_eqb_eq; auto).
        rewrite P in *. contradiction.
      * intros r J. apply (Permutation_in _ P), filter_In in J as [_ J]. now apply str_eqb_eq.
  - unfold content. rewrite Ri, S3, Fst. unfold index_text, pages. rewrite map_length.
    rewrite unlines_app, <- !app_assoc. reflexivity.
  - intros k c page E. unfold pages in E. rewrite nth_error_map in E.
    destruct (nth_error (sc cs) k) as [c'|] eqn:F; [|discriminate].
    cbn [option_map] in E. injection E as <- <-. specialize (P2 k c' F).
    rewrite G1 in P2. cbn [Nat.add] in P2. rewrite <- P2. unfold content.
    apply nth_error_In, Ic in F as (r & I & <-). destruct (Rp r I) as (f & -> & N). auto.
  - intros f Hf. rewrite Fst in Hf.
    assert (f <> fi) by (intros ->; apply (Hf $"index"); simpl; auto).
    rewrite O3, O2, O1; auto; unfold fs0.
    + now apply fs_set_other.
    + intros c I. apply Hf. now right.
Qed.

Lemma filter_all_id {A} (f : A -> bool) l : (forall x, In x l -> f x = true) -> filter f l = l.
Proof.
  induction l as [|x l IH]; intros H; auto. cbn [filter]. rewrite H by (simpl; auto).
  f_equal. apply IH. intros; apply H; simpl; auto.
Qed.

(** The order of rules with different identifiers does not depend on the sorting algorithm. *)
Theorem c73_reproducible : forall rules pages1 pages2,
  NoDup (map d_identifier rules) ->
  well_documented rules pages1 -> well_documented rules pages2 -> pages1 = pages2.
Proof.
  assert (Cov : forall rules pages, well_documented rules pages ->
            forall c, In c (map fst pages) <-> exists r, In r rules /\ d_category r = c).
  { intros rules pages (S & P & H) c. split.
    - intros I. apply in_map_iff in I as ([c' page] & <- & I). destruct (H _ _ I) as (NE & Cat & _).
      destruct page as [|r page]; [congruence|]. exists r. split; [|apply Cat; simpl; auto].
      apply (Permutation_in _ P), in_concat. exists (r :: page). split; [|simpl; auto].
      apply in_map_iff. exists (c', r :: page). auto.
    - intros (r & I & <-). apply (Permutation_in _ (Permutation_sym P)), in_concat in I as (page & J & K).
      apply in_map_iff in J as ([c page'] & E & J). cbn [snd] in E. subst.
      apply in_map_iff. exists (c, page). split; auto. symmetry. now apply (H c page J). }
  assert (Page : forall rules pages, well_documented rules pages ->
            forall c page, In (c, page) pages -> Permutation page (of_category c rules)).
  { intros rules pages (S & P & H) c page I.
    transitivity (of_category c (concat (map snd pages))).
    - apply strict_nodup in S. clear P.
      induction pages as [|[c' p] pages IH]; [destruct I|]. cbn [map concat].
      unfold of_category. rewrite filter_app. cbn [map] in S. inversion S as [|? ? NI S']; subst.
      destruct I as [E|I].
      + injection E as <- <-. destruct (H c' p (or_introl eq_refl)) as (_ & Cat & _).
        rewrite (filter_all_id _ p).
        * rewrite <- (app_nil_r p) at 1. apply Permutation_app_head.
          assert (Z : filter (fun r => str_eqb (d_category r) c') (concat (map snd pages)) = []).
          { clear IH S. assert (H' : forall c page, In (c, page) pages -> c <> c' /\ forall r, In r page -> d_category r = c).
            { intros c page J. split; [|apply H; now right]. intros ->. apply NI.
              apply in_map_iff. exists (c', page). auto. }
            clear - H'. induction pages as [|[c p] pages IH]; auto. cbn [map concat snd].
            rewrite filter_app, IH by (intros; apply H'; now right). rewrite app_nil_r.
            destruct (H' c p (or_introl eq_refl)) as [N C].
            clear - N C. induction p as [|r p IH]; auto. cbn [filter].
            rewrite (C r) by (simpl; auto). apply str_eqb_neq in N. rewrite N.
            apply IH. intros; apply C; simpl; auto. }
          cbn [snd]. rewrite Z. constructor.
        * intros r J. apply str_eqb_eq. auto.
      + destruct (H c' p (or_introl eq_refl)) as (_ & Cat & _).
        assert (N : c' <> c).
        { intros ->. apply NI. apply in_map_iff. exists (c, page). auto. }
        assert (Z : filter (fun r => str_eqb (d_category r) c) p = []).
        { clear - N Cat. induction p as [|r p IH]; auto. cbn [filter].
          rewrite (Cat r) by (simpl; auto). apply str_eqb_neq in N. rewrite N.
          apply IH. intros; apply Cat; simpl; auto. }
        cbn [snd]. rewrite Z. cbn [app]. apply IH; auto. intros; apply H; now right.
    - unfold of_category. clear - P. induction P; cbn [filter]; auto.
      + destruct (str_eqb (d_category x) c); auto.
      + destruct (str_eqb (d_category x) c), (str_eqb (d_category y) c); auto. constructor.
      + eauto using Permutation_trans. }
  intros rules p1 p2 N W1 W2.
  assert (F : map fst p1 = map fst p2).
  { pose proof (strict_nodup _ (proj1 W1)) as N1. pose proof (strict_nodup _ (proj1 W2)) as N2.
    apply (sorted_unique (fun c : str => c)); rewrite ?map_id; auto.
    - apply NoDup_Permutation; auto. intros c. now rewrite (Cov _ _ W1), (Cov _ _ W2).
    - destruct W1 as [S _]. clear - S. induction S as [|x l S IH F]; constructor; auto.
      eapply Forall_impl; [|exact F]. intros y X Y. apply str_ltb_before in X, Y.
      pose proof (str_ltb_trans _ _ _ X Y) as Z. now rewrite str_ltb_irrefl in Z.
    - destruct W2 as [S _]. clear - S. induction S as [|x l S IH F]; constructor; auto.
      eapply Forall_impl; [|exact F]. intros y X Y. apply str_ltb_before in X, Y.
      pose proof (str_ltb_trans _ _ _ X Y) as Z. now rewrite str_ltb_irrefl in Z. }
  assert (Each : forall c q1 q2, In (c, q1) p1 -> In (c, q2) p2 -> q1 = q2).
  { intros c q1 q2 I1 I2. pose proof (Page _ _ W1 _ _ I1) as P1. pose proof (Page _ _ W2 _ _ I2) as P2.
    apply (sorted_unique d_identifier).
    - eapply Permutation_trans; [exact P1|]. now apply Permutation_sym.
    - apply (Permutation_NoDup (Permutation_map d_identifier (Permutation_sym P1))).
      clear - N. unfold of_category. induction rules as [|r rules IH]; cbn [filter map]; [constructor|].
      cbn [map] in N. inversion N as [|? ? NI N']; subst.
      destruct (str_eqb (d_category r) c); auto. cbn [map]. constructor; auto.
      intros I. apply NI. apply in_map_iff in I as (x & E & I). apply filter_In in I as [I _].
      apply in_map_iff. eauto.
    - now apply (proj2 (proj2 W1)) in I1.
    - now apply (proj2 (proj2 W2)) in I2. }
  clear - F Each. revert p2 F Each. induction p1 as [|[c q] p1 IH]; intros [|[c' q'] p2] F Each;
    try discriminate; auto.
  cbn [map fst] in F. injection F as <- F. f_equal.
  - f_equal. apply (Each c); simpl; auto.
  - apply IH; auto. intros d q1 q2 I1 I2. apply (Each d); simpl; auto.
Qed.

(** Nothing is generated when loading fails or no rule is loaded. *)
Theorem c73_no_rules : forall resolve sc sr now rules fs,
  (forall m, docgen resolve sc sr now (rules, Exc m) fs
             = (fs, [EErr ([NL] ++ $"oclint: error: " ++ m ++ [NL])], Exit 1))
  /\ docgen resolve sc sr now ([], Val tt) fs
     = (fs, [EErr ([NL] ++ $"oclint: error: no rule loaded" ++ [NL])], Exit 1).
Proof. split; [|reflexivity]. intros m. destruct rules; reflexivity. Qed.

(** An insertion sort, to show that the hypotheses can be met. *)
Fixpoint insert_by {A} (key : A -> str) (x : A) (l : list A) : list A :=
  match l with
  | [] => [x]
  | y :: l' => if str_ltb (key y) (key x) then y :: insert_by key x l' else x :: l
  end.
Definition sort_by {A} (key : A -> str) (l : list A) : list A := fold_right (insert_by key) [] l.
Lemma sort_by_sorts {A} (key : A -> str) : sorts_by key (sort_by key).
Proof.
  assert (Ins : forall x l, Permutation (insert_by key x l) (x :: l)).
  { intros x l. induction l as [|y l IH]; cbn [insert_by]; auto.
    destruct (str_ltb (key y) (key x)); auto. rewrite IH. constructor. }
  intros l. induction l as [|x l [P S]].
  - split; constructor.
  - change (sort_by key (x :: l)) with (insert_by key x (sort_by key l)). split; [rewrite Ins; now constructor|].
    clear P. induction (sort_by key l) as [|y k IH]; cbn [insert_by].
    + repeat constructor.
    + cbn [map] in S. inversion S as [|? ? S' F]; subst.
      destruct (str_ltb (key y) (key x)) eqn:E; cbn [map].
      * constructor; auto. rewrite Forall_forall in *. intros z I.
        apply in_map_iff in I as (w & <- & I). apply (Permutation_in _ (Ins x k)) in I.
        destruct I as [->|I]; [|apply F, in_map_iff; eauto].
        intros X. apply str_ltb_before in X. pose proof (str_ltb_trans _ _ _ X E) as Z.
        now rewrite str_ltb_irrefl in Z.
      * constructor; auto. constructor.
        -- intros X. apply str_ltb_before in X. congruence.
        -- rewrite Forall_forall in *. intros z I X. apply str_ltb_before in X.
           destruct (str_ltb_total (key x) (key y)) as [Y|[Y|Y]].
           ++ apply (F z I). apply str_ltb_before. eapply str_ltb_trans; eauto.
           ++ apply (F z I). apply str_ltb_before. now rewrite <- Y.
           ++ congruence.
Qed.

Definition sample (name category : str) : docrule :=
  {| d_name := name; d_identifier := identifier name; d_category := category;
     d_fileName := fileName name; d_since := $"0.6"; d_description := $"Text."; d_example := $"code";
     d_thresholds := [($"LIMIT", $"why")]; d_enableSuppress := true; d_attributeName := name;
     d_additional := [] |}.
Definition sample_rules : list docrule :=
  [sample $"long line" $"size"; sample $"goto statement" $"basic"; sample $"long class" $"size"].
Example c73_case_separate : separate_outputs Some sample_rules.
Proof.
  split; [discriminate|]. split; [intros p q _ _ E; congruence|].
  intros r [<-|[<-|[<-|[]]]]; discriminate.
Qed.
Example c73_case : content Some
  (generate Some (sort_by (fun c => c)) (sort_by d_identifier) (fun _ => $"today" ++ [NL])
     sample_rules (fun _ => None)) index_path
  = Some (index_text 3 [$"basic"; $"size"] ($"today" ++ [NL])).
Proof. vm_compute. reflexivity. Qed.
Example c73_case_page : map d_name (match
   sort_by d_identifier (of_category $"size" sample_rules) with l => l end)
  = [$"long class"; $"long line"].
Proof. vm_compute. reflexivity. Qed.

(** Finding: a category called "index" shares its page with the index, which is lost. *)
Theorem c73_index_category_refuted : exists rules fs,
  rules <> [] /\
  forall text, content Some
    (generate Some (sort_by (fun c => c)) (sort_by d_identifier) (fun _ => $"today") rules fs) index_path
  <> Some ($"Rule Index" ++ text).
Proof.
  exists [sample $"long line" $"index"], (fun _ => None). split; [discriminate|].
  intros text E. apply (f_equal (option_map (firstn 1))) in E. vm_compute in E. discriminate.
Qed.
(** Finding: if no file can be written (say, the output directory is missing) the program
    still claims success, silently. *)
Theorem c73_success_means_written_refuted : forall sc sr now rules fs,
  rules <> [] ->
  docgen (fun _ => None) sc sr now (rules, Val tt) fs = (fs, [], Exit 0).
Proof.
  intros sc sr now rules fs NE. destruct rules as [|r rules]; [congruence|].
  unfold docgen. generalize (r :: rules). clear. intros rules.
  unfold generate. destruct (group rules) as [cs m].
  unfold open_out. fold deaf.
  assert (H : writeIndexHeader (Z.of_nat (length rules)) (fs, deaf) = (fs, deaf)) by reflexivity.
  rewrite H, ignored_categories. reflexivity.
Qed.

(** ** C107: the documented annotation works

    Where the documentation of a rule has a suppression line, the annotation quoted in it,
    written on any declaration, hides that rule there and no other rule (of names without
    closing bracket). *)
Theorem c107_documented_annotation_hides : forall r,
  d_enableSuppress r = true ->
  exists annotation,
    In ($"    __attribute__((annotate(""" ++ annotation ++ $""")))") (rule_lines r)
    /\ (forall m, markedAsSuppress (Decl [annotation] m) (Some (d_attributeName r)) = true)
    /\ (forall other, ~ In "]"%char other -> ~ In "]"%char (d_attributeName r) ->
        markedAsSuppress (Decl [annotation] None) (Some other) = true -> other = d_attributeName r).
Proof.
  intros r E. exists ($"oclint:suppress[" ++ d_attributeName r ++ $"]"). split; [|split].
  - unfold rule_lines. rewrite E. do 7 (apply in_or_app; right). apply in_or_app. left.
    do 4 right. left. rewrite <- !app_assoc. reflexivity.
  - intros m. apply c41_suppression_is_per_rule. right. exists [$"oclint:suppress[" ++ d_attributeName r ++ $"]"].
    split; [constructor|]. exists []. left. now rewrite app_nil_r.
  - intros other N1 N2 H. apply c41_suppression_is_per_rule in H as [H|(l & C & H)].
    + destruct H as [H|[]]. exfalso. revert H. vm_compute. discriminate.
    + inversion C; subst. symmetry. apply (c41_named_rule_only _ _ []); auto.
Qed.
Theorem c107_only_if_enabled : forall r annotation,
  d_enableSuppress r = false ->
  In ($"    __attribute__((annotate(""" ++ annotation ++ $""")))") (rule_lines r) ->
  In ($"    __attribute__((annotate(""" ++ annotation ++ $""")))")
     ([d_identifier r; d_description r; d_example r; d_additional r]
      ++ map fst (d_thresholds r) ++ map (fun kv => $"    " ++ snd kv) (d_thresholds r)).
Proof.
  intros r a E H. unfold rule_lines in H. rewrite E in H.
  set (line := $"    __attribute__((annotate(""" ++ a ++ $""")))") in *.
  assert (NE : line <> []) by (intros X; discriminate X).
  rewrite !in_app_iff in H. rewrite in_app_iff. rewrite in_app_iff.
  destruct H as [H|[H|[H|[H|[H|[H|[H|[H|H]]]]]]]].
  - destruct H as [H|[H|[H|[]]]]; try congruence; [left; left; auto|]. exfalso.
    destruct (d_identifier r); discriminate H.
  - exfalso. destruct H as [H|[H|[]]]; try congruence; discriminate H.
  - exfalso. destruct H as [H|[H|[]]]; try congruence; discriminate H.
  - destruct H as [H|[H|[]]]; try congruence. left. right. left. auto.
  - exfalso. destruct H as [H|[H|[]]]; try congruence; discriminate H.
  - destruct H as [H|[H|[H|[H|[]]]]]; try congruence; [discriminate H|]. left. do 2 right. left. auto.
  - destruct (d_thresholds r) as [|e m]; [destruct H|]. cbn [is_nil] in H.
    rewrite !in_app_iff in H. destruct H as [[H|[H|[]]]|[H|[H|[]]]]; try congruence; [discriminate H|].
    apply in_flat_map in H as (kv & I & [H|[H|[]]]).
    + right. left. apply in_map_iff. eauto.
    + right. right. apply in_map_iff. eauto.
  - destruct H.
  - destruct (d_additional r) as [|x l]; [destruct H|]. cbn [is_nil] in H. destruct H as [H|[]].
    left. do 3 right. left. auto.
Qed.
Example c107_case : exists a,
  In ($"    __attribute__((annotate(""" ++ a ++ $""")))") (rule_lines (sample $"long line" $"size"))
  /\ a = $"oclint:suppress[long line]".
Proof. eexists. split; [|reflexivity]. vm_compute. tauto. Qed.

Print Assumptions c73_documentation.
Print Assumptions c73_reproducible.
Print Assumptions c73_no_rules.
Print Assumptions c73_index_category_refuted.
Print Assumptions c73_success_means_written_refuted.
Print Assumptions c107_documented_annotation_hides.
Print Assumptions c107_only_if_enabled.
