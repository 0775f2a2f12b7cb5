(** * Lemmas about the documentation generator *)
From Verif Require Import Base BaseFacts ModelResults ModelConfig ModelFilter ModelOptions ModelMain
  ModelDocgen SpecDocgen.
From Coq Require Import Permutation Sorting.Sorted Lia.
Local Arguments lit : simpl never.

(** ** Dictionary order *)
Lemma code_inj a b : code a = code b -> a = b.
Proof.
  unfold code. intros H. rewrite <- (ascii_nat_embedding a), <- (ascii_nat_embedding b). congruence.
Qed.
Lemma str_ltb_before a : forall b, str_ltb a b = true <-> before a b.
Proof.
  induction a as [|x a IH]; intros b.
  - destruct b as [|y b]; simpl.
    + split; [discriminate|]. intros (p & [(c & t & <- & E)|(c & d & s & t & E & _)]).
      * discriminate.
      * destruct p; discriminate.
    + split; auto. intros _. exists []. left. exists y, b. auto.
  - destruct b as [|y b]; simpl.
    + split; [discriminate|]. intros (p & [(c & t & _ & E)|(c & d & s & t & _ & E & _)]);
        destruct p; discriminate.
    + destruct (Nat.ltb_spec (code x) (code y)) as [L|L].
      { split; auto. intros _. exists []. right. exists x, y, a, b. auto. }
      destruct (Nat.ltb_spec (code y) (code x)) as [L'|L'].
      { split; [discriminate|]. intros (p & [(c & t & E1 & E2)|(c & d & s & t & E1 & E2 & E3)]);
          destruct p; simpl in *; try discriminate; inversion E1; inversion E2; subst; lia. }
      assert (x = y) by (apply code_inj; lia). subst y. rewrite IH. split.
      * intros (p & [(c & t & -> & ->)|(c & d & s & t & -> & -> & H)]); exists (x :: p);
          [left|right]; simpl; eauto 10.
      * intros (p & [(c & t & E1 & E2)|(c & d & s & t & E1 & E2 & E3)]);
          destruct p; simpl in *; try discriminate; inversion E1; inversion E2; subst; try lia.
        -- exists p. left. eauto.
        -- exists p. right. eauto 10.
Qed.
Lemma str_ltb_total a : forall b, str_ltb a b = true \/ a = b \/ str_ltb b a = true.
Proof.
  induction a as [|x a IH]; intros [|y b]; simpl; auto.
  destruct (Nat.ltb_spec (code x) (code y)); auto.
  destruct (Nat.ltb_spec (code y) (code x)); auto.
  assert (x = y) by (apply code_inj; lia). subst. destruct (IH b) as [|[->|]]; auto.
Qed.
Lemma str_ltb_trans a : forall b c, str_ltb a b = true -> str_ltb b c = true -> str_ltb a c = true.
Proof.
  induction a as [|x a IH]; intros [|y b] [|z c]; simpl; auto; try discriminate.
  destruct (Nat.ltb_spec (code x) (code y)), (Nat.ltb_spec (code y) (code z)),
    (Nat.ltb_spec (code y) (code x)), (Nat.ltb_spec (code z) (code y)),
    (Nat.ltb_spec (code x) (code z)), (Nat.ltb_spec (code z) (code x));
    try lia; try discriminate; auto. apply IH.
Qed.
Lemma str_ltb_irrefl a : str_ltb a a = false.
Proof. induction a; simpl; auto. now rewrite Nat.ltb_irrefl. Qed.
Lemma not_after_cases a b : not_after a b -> before a b \/ a = b.
Proof.
  intros H. destruct (str_ltb_total a b) as [E|[E|E]]; auto.
  - left. now apply str_ltb_before.
  - destruct H. now apply str_ltb_before.
Qed.
Lemma sorted_nodup_strict l : StronglySorted not_after l -> NoDup l -> StronglySorted before l.
Proof.
  induction 1 as [|a l S IH F]; intros N; [constructor|]. inversion N as [|? ? NI N']; subst.
  constructor; auto. rewrite Forall_forall in *. intros b I.
  destruct (not_after_cases a b (F b I)); auto. subst. contradiction.
Qed.
Lemma strict_nodup l : StronglySorted before l -> NoDup l.
Proof.
  induction 1 as [|a l S IH F]; constructor; auto.
  intros I. rewrite Forall_forall in F. apply F in I. apply str_ltb_before in I.
  now rewrite str_ltb_irrefl in I.
Qed.

(** ** Grouping *)
Lemma rmap_get_put m k v k' :
  rmap_get (rmap_put m k v) k' = if str_eqb k k' then v else rmap_get m k'.
Proof.
  induction m as [|[k1 v1] m IH]; simpl.
  - reflexivity.
  - destruct (str_eqb k1 k) eqn:E; simpl.
    + apply str_eqb_eq in E. subst. now destruct (str_eqb k k').
    + rewrite IH. destruct (str_eqb k1 k') eqn:E1; auto. apply str_eqb_eq in E1. subst.
      destruct (str_eqb k k') eqn:E2; auto. apply str_eqb_eq in E2. subst.
      now rewrite str_eqb_refl in E.
Qed.
Definition of_category (c : str) (rules : list docrule) : list docrule :=
  filter (fun r => str_eqb (d_category r) c) rules.
Lemma existsb_In c l : existsb (str_eqb c) l = true <-> In c l.
Proof.
  rewrite existsb_exists. split.
  - intros (x & I & E). apply str_eqb_eq in E. now subst.
  - intros I. exists c. split; auto. apply str_eqb_refl.
Qed.
Lemma group_inv rules : forall done st,
  (forall c, rmap_get (snd st) c = of_category c done)
  /\ (forall c, In c (fst st) <-> exists r, In r done /\ d_category r = c)
  /\ NoDup (fst st) ->
  let st' := fold_left group_step rules st in
  (forall c, rmap_get (snd st') c = of_category c (done ++ rules))
  /\ (forall c, In c (fst st') <-> exists r, In r (done ++ rules) /\ d_category r = c)
  /\ NoDup (fst st').
Proof.
  induction rules as [|r rules IH]; intros done st H.
  - now rewrite app_nil_r.
  - replace (done ++ r :: rules) with ((done ++ [r]) ++ rules) by now rewrite <- app_assoc.
    cbn [fold_left]. apply IH. clear IH. destruct st as [cs m], H as (H1 & H2 & H3).
    cbn [fst snd] in *. unfold group_step.
    destruct (existsb (str_eqb (d_category r)) cs) eqn:E; cbn [negb fst snd].
    + apply existsb_In in E. split; [|split]; auto.
      * intros c. rewrite rmap_get_put, H1. unfold of_category. rewrite filter_app. cbn [filter].
        destruct (str_eqb (d_category r) c) eqn:E1; [|now rewrite app_nil_r, H1].
        apply str_eqb_eq in E1. now subst.
      * intros c. rewrite H2. split.
        -- intros (x & I & X). exists x. rewrite in_app_iff. auto.
        -- intros (x & I & X). apply in_app_or in I as [I|[->|[]]]; eauto.
           apply H2. now rewrite <- X.
    + assert (N : ~ In (d_category r) cs) by (rewrite <- existsb_In, E; discriminate).
      split; [|split].
      * intros c. rewrite rmap_get_put. unfold of_category. rewrite filter_app. cbn [filter].
        destruct (str_eqb (d_category r) c) eqn:E1; [|now rewrite app_nil_r, H1].
        apply str_eqb_eq in E1. subst.
        rewrite <- (app_nil_l [r]) at 1. f_equal. symmetry. fold (of_category (d_category r) done).
        destruct (of_category (d_category r) done) as [|y l] eqn:F; auto.
        destruct N. apply H2. exists y.
        assert (I : In y (of_category (d_category r) done)) by (rewrite F; simpl; auto).
        apply filter_In in I as [I I']. apply str_eqb_eq in I'. auto.
      * intros c. rewrite in_app_iff, H2. split.
        -- intros [(x & I & X)|[<-|[]]]; [exists x|exists r]; rewrite in_app_iff; simpl; auto.
        -- intros (x & I & X). apply in_app_or in I as [I|[->|[]]]; simpl; eauto.
      * apply NoDup_Add with (a := d_category r) (l := cs); [|auto].
        pose proof (Add_app (d_category r) cs []) as A. now rewrite app_nil_r in A.
Qed.
Lemma group_spec rules :
  (forall c, rmap_get (snd (group rules)) c = of_category c rules)
  /\ (forall c, In c (fst (group rules)) <-> exists r, In r rules /\ d_category r = c)
  /\ NoDup (fst (group rules)).
Proof.
  apply (group_inv rules [] ([], [])). split; [|split]; auto.
  - intros c. split; [intros []|intros (r & [] & _)].
  - constructor.
Qed.

(** Splitting a list by category, for any duplicate-free list covering the categories. *)
Lemma partition_perm : forall cs rules, NoDup cs ->
  (forall r, In r rules -> In (d_category r) cs) ->
  Permutation (concat (map (fun c => of_category c rules) cs)) rules.
Proof.
  induction cs as [|c cs IH]; intros rules N H.
  - destruct rules as [|r rules]; auto. destruct (H r). simpl; auto.
  - inversion N as [|? ? NI N']; subst. cbn [map concat].
    set (rest := filter (fun r => negb (str_eqb (d_category r) c)) rules).
    assert (E : map (fun c0 => of_category c0 rules) cs = map (fun c0 => of_category c0 rest) cs).
    { apply map_ext_in. intros c0 I. unfold of_category, rest.
      induction rules as [|r rules IHr]; simpl; auto.
      destruct (str_eqb (d_category r) c) eqn:E1; simpl.
      - destruct (str_eqb (d_category r) c0) eqn:E2.
        + apply str_eqb_eq in E1, E2. congruence.
        + apply IHr. intros; apply H; simpl; auto.
      - destruct (str_eqb (d_category r) c0); rewrite IHr; auto; intros; apply H; simpl; auto. }
    rewrite E, IH; auto.
    + unfold of_category, rest. clear. induction rules as [|r rules IH]; simpl; auto.
      destruct (str_eqb (d_category r) c); simpl; [now constructor|].
      rewrite <- Permutation_middle. now constructor.
    + intros r I. unfold rest in I. apply filter_In in I as [I I'].
      destruct (H r I) as [->|]; auto. now rewrite str_eqb_refl in I'.
Qed.

(** ** Streams *)
Definition stream_at (f : str) (c : str) : stream := {| s_file := Some f; s_off := length c |}.
Definition emits (w : fsys * stream -> fsys * stream) (text : str) : Prop :=
  forall (fs : fsys) f c, fs f = Some c ->
  exists fs' : fsys, w (fs, stream_at f c) = (fs', stream_at f (c ++ text))
    /\ fs' f = Some (c ++ text) /\ forall g, g <> f -> fs' g = fs g.
Lemma fs_set_same fs f c : fs_set fs f c f = Some c.
Proof. unfold fs_set. now rewrite str_eqb_refl. Qed.
Lemma fs_set_other fs f c g : g <> f -> fs_set fs f c g = fs g.
Proof. unfold fs_set. intros H. apply str_eqb_neq in H. now rewrite H. Qed.
Lemma write_at_end c data : write_at c (length c) data = c ++ data.
Proof.
  unfold write_at. rewrite firstn_app, firstn_all, Nat.sub_diag. cbn [firstn].
  rewrite app_nil_r. f_equal. rewrite skipn_all2 by lia. now rewrite app_nil_r.
Qed.
Lemma emits_put data : emits (put data) data.
Proof.
  intros fs f c H. unfold put, stream_at. cbn [s_file s_off]. rewrite H, write_at_end.
  eexists. split; [|split].
  - rewrite app_length. reflexivity.
  - apply fs_set_same.
  - intros g. apply fs_set_other.
Qed.
Lemma emits_putl data : emits (putl data) (data ++ [NL]).
Proof. apply emits_put. Qed.
Lemma emits_seq w1 w2 t1 t2 : emits w1 t1 -> emits w2 t2 -> emits (fun x => w2 (w1 x)) (t1 ++ t2).
Proof.
  intros H1 H2 fs f c H. destruct (H1 fs f c H) as (fs1 & E1 & S1 & O1).
  destruct (H2 fs1 f _ S1) as (fs2 & E2 & S2 & O2). exists fs2. cbv beta. rewrite E1, E2.
  rewrite <- app_assoc in *. split; auto. split; auto. intros g N. now rewrite O2, O1.
Qed.
Lemma emits_id : emits (fun x => x) [].
Proof. intros fs f c H. exists fs. rewrite app_nil_r. auto. Qed.
Lemma emits_eq w t t' : emits w t -> t = t' -> emits w t'.
Proof. intros H <-. exact H. Qed.
Lemma emits_times n ch : emits (put_times n [ch]) (repeat ch n).
Proof.
  induction n as [|n IH]; [apply emits_id|]. cbn [put_times repeat].
  apply (emits_seq (put [ch]) (put_times n [ch]) [ch]); [apply emits_put|exact IH].
Qed.
Lemma emits_thresholds m :
  emits (writeThresholds m) (unlines (flat_map (fun kv => [fst kv; $"    " ++ snd kv]) m)).
Proof.
  induction m as [|[k v] m IH]; [apply emits_id|]. cbn [writeThresholds flat_map app].
  cbn [fst snd]. unfold unlines. cbn [flat_map]. rewrite app_assoc.
  apply (emits_seq (fun x => putl ($"    " ++ v) (putl k x)) (writeThresholds m)); [|exact IH].
  apply (emits_seq (putl k) (putl ($"    " ++ v))); apply emits_putl.
Qed.
Lemma unlines_app a b : unlines (a ++ b) = unlines a ++ unlines b.
Proof. unfold unlines. apply flat_map_app. Qed.
Lemma unlines_cons a b : unlines (a :: b) = (a ++ [NL]) ++ unlines b.
Proof. reflexivity. Qed.

Lemma emits_index_header n : emits (writeIndexHeader n)
  (unlines [$"Rule Index"; $"=========="; []; $"OCLint |release| includes " ++ show_Z n ++ $" rules.";
            []; $".. toctree::"; $"   :maxdepth: 2"; []]).
Proof.
  unfold writeIndexHeader. unfold unlines. cbn [flat_map]. rewrite app_nil_r.
  eapply emits_eq.
  - do 7 (apply (emits_seq _ (putl _)); [|apply emits_putl]). apply emits_putl.
  - rewrite <- !app_assoc. reflexivity.
Qed.

Lemma emits_category_header c : emits (writeCategoryHeader c) (unlines (heading "="%char (title_of c))).
Proof.
  unfold writeCategoryHeader, heading, unlines. cbn [flat_map]. rewrite app_nil_r.
  change (capitalised c) with (title_of c).
  eapply emits_eq.
  - do 2 (apply (emits_seq _ (putl _)); [|apply emits_putl]).
    apply (emits_seq _ (put_times _ _)); [apply emits_putl|apply emits_times].
  - rewrite <- !app_assoc. reflexivity.
Qed.
Lemma emits_footer date : emits (writeFooter date) ([NL] ++ $".. Generated on " ++ date ++ [NL]).
Proof.
  unfold writeFooter. eapply emits_eq.
  - apply (emits_seq _ (putl _)); [|apply emits_putl].
    apply (emits_seq _ (put _)); [|apply emits_put]. apply emits_putl.
  - rewrite <- !app_assoc. reflexivity.
Qed.
Lemma emits_line2 w t a : emits w t -> emits (fun x => putl [] (putl a (w x))) (t ++ unlines [a; []]).
Proof.
  intros H. eapply emits_eq.
  - do 2 (apply (emits_seq _ (putl _)); [|apply emits_putl]). exact H.
  - unfold unlines. cbn [flat_map]. now rewrite <- !app_assoc.
Qed.
Lemma emits_after w1 w2 t1 t2 t : emits w1 t1 -> emits w2 t2 -> t = t1 ++ t2 -> emits (fun x => w2 (w1 x)) t.
Proof. intros H1 H2 ->. now apply emits_seq. Qed.

Lemma emits_rule r : emits (writeRuleToCategory r) (unlines (rule_lines r)).
Proof.
  unfold writeRuleToCategory.
  set (A := fun x : fsys * stream => putl [] (putl [] (put_times (length (d_identifier r)) $"-" (putl (d_identifier r) x)))).
  assert (HA : emits A (unlines (heading "-"%char (d_identifier r)))).
  { unfold A, heading, unlines. cbn [flat_map]. rewrite app_nil_r. eapply emits_eq.
    - do 2 (apply (emits_seq _ (putl _)); [|apply emits_putl]).
      apply (emits_seq _ (put_times _ _)); [apply emits_putl|apply emits_times].
    - rewrite <- !app_assoc. reflexivity. }
  set (path := $"oclint-rules/rules/" ++ d_category r ++ $"/" ++ d_fileName r).
  set (B := fun x : fsys * stream =>
    let x := putl [] (putl ($"**Since: " ++ d_since r ++ $"**") x) in
    let x := putl [] (putl ($"**Name: " ++ d_name r ++ $"**") x) in
    let x := putl [] (putl (d_description r) x) in
    let x := putl [] (putl ($"This rule is defined by the following class: " ++
                          $"`" ++ path ++ $" " ++
                          $"<https://github.com/oclint/oclint/blob/master/" ++ path ++ $">`_") x) in
    let x := putl [] (putl $"**Example:**" x) in
    putl [] (putl (d_example r) x)).
  assert (HB : emits B (unlines (
    [$"**Since: " ++ d_since r ++ $"**"; []]
    ++ [$"**Name: " ++ d_name r ++ $"**"; []]
    ++ [d_description r; []]
    ++ [$"This rule is defined by the following class: `" ++ path ++
        $" <https://github.com/oclint/oclint/blob/master/" ++ path ++ $">`_"; []]
    ++ [$"**Example:**"; []; d_example r; []]))).
  { unfold B. eapply emits_eq.
    - do 6 apply emits_line2. apply emits_id.
    - rewrite !unlines_app. unfold unlines at 5 6 11. cbn [flat_map].
      rewrite <- !app_assoc. reflexivity. }
  set (C := fun x : fsys * stream =>
    match d_thresholds r with
    | [] => x
    | m => putl [] (writeThresholds m (putl [] (putl $"**Thresholds:**" x)))
    end).
  assert (HC : emits C (unlines (if is_nil (d_thresholds r) then []
      else [$"**Thresholds:**"; []]
           ++ flat_map (fun kv => [fst kv; $"    " ++ snd kv]) (d_thresholds r) ++ [[]]))).
  { unfold C. destruct (d_thresholds r) as [|e m]; [apply emits_id|]. cbn [is_nil].
    rewrite !unlines_app. rewrite app_assoc.
    eapply (emits_after (fun x => writeThresholds (e :: m) (putl [] (putl $"**Thresholds:**" x)))
             (putl []) _ ([] ++ [NL]) _); [|apply emits_putl|reflexivity].
    eapply (emits_after (fun x => putl [] (putl $"**Thresholds:**" x)) (writeThresholds (e :: m))
             _ _ _); [|apply emits_thresholds|reflexivity].
    apply (emits_line2 (fun x => x) [] _ emits_id). }
  set (D := fun x : fsys * stream =>
    if d_enableSuppress r
    then let x := putl [] (putl $"**Suppress:**" x) in
         let x := putl [] (putl $".. code-block:: cpp" x) in
         putl [] (putl ($"    __attribute__((annotate(""oclint:suppress[" ++
                        d_attributeName r ++ $"]"")))") x)
    else x).
  assert (HD : emits D (unlines (if d_enableSuppress r
      then [$"**Suppress:**"; []; $".. code-block:: cpp"; [];
            $"    __attribute__((annotate(""oclint:suppress[" ++ d_attributeName r ++ $"]"")))"; []]
      else []))).
  { unfold D. destruct (d_enableSuppress r); [|apply emits_id]. eapply emits_eq.
    - do 3 apply emits_line2. apply emits_id.
    - unfold unlines. cbn [flat_map]. rewrite <- !app_assoc. reflexivity. }
  set (E := fun x : fsys * stream => match d_additional r with [] => x | doc => putl doc x end).
  assert (HE : emits E (unlines (if is_nil (d_additional r) then [] else [d_additional r]))).
  { unfold E. destruct (d_additional r); [apply emits_id|]. cbn [is_nil]. unfold unlines.
    cbn [flat_map]. rewrite app_nil_r. apply emits_putl. }
  change (emits (fun x => E (D (C (B (A x))))) (unlines (rule_lines r))).
  unfold rule_lines. change (source_path r) with path.
  eapply emits_eq.
  - apply (emits_seq (fun x => D (C (B (A x)))) E); [|exact HE].
    apply (emits_seq (fun x => C (B (A x))) D); [|exact HD].
    apply (emits_seq (fun x => B (A x)) C); [|exact HC].
    apply (emits_seq A B); [exact HA|exact HB].
  - rewrite !unlines_app, <- !app_assoc. reflexivity.
Qed.
Lemma emits_rules rs : emits (write_rules rs) (unlines (flat_map rule_lines rs)).
Proof.
  induction rs as [|r rs IH]; [apply emits_id|].
  cbn [flat_map]. rewrite unlines_app.
  apply (emits_seq (writeRuleToCategory r) (write_rules rs)); [apply emits_rule|exact IH].
Qed.

(** One category page, written to a freshly opened file. *)
Lemma emits_page c rs date :
  emits (fun x => writeFooter date (write_rules rs (writeCategoryHeader c x))) (page_text c rs date).
Proof.
  unfold page_text. rewrite unlines_app, <- app_assoc.
  eapply emits_eq.
  - apply (emits_seq (fun x => write_rules rs (writeCategoryHeader c x)) (writeFooter date));
      [|apply emits_footer].
    apply (emits_seq (writeCategoryHeader c) (write_rules rs));
      [apply emits_category_header|apply emits_rules].
  - rewrite <- !app_assoc. reflexivity.
Qed.

Lemma page_path_inj a b : page_path a = page_path b -> a = b.
Proof. unfold page_path. intros H. apply app_inv_head in H. now apply app_inv_tail in H. Qed.

Lemma write_categories_spec resolve sort_rules now m fi : forall cs i (fs : fsys) ci,
  fs fi = Some ci -> NoDup cs ->
  (forall c, In c cs -> exists f, resolve (page_path c) = Some f /\ f <> fi) ->
  (forall c d, In c cs -> In d cs -> resolve (page_path c) = resolve (page_path d) -> c = d) ->
  exists fs' : fsys,
    write_categories resolve sort_rules now m cs i (fs, stream_at fi ci)
      = (fs', stream_at fi (ci ++ unlines (map (fun c => $"   " ++ c) cs)))
    /\ fs' fi = Some (ci ++ unlines (map (fun c => $"   " ++ c) cs))
    /\ (forall k c, nth_error cs k = Some c ->
        content resolve fs' (page_path c) = Some (page_text c (sort_rules (rmap_get m c)) (now (i + k))))
    /\ (forall g, g <> fi -> (forall c, In c cs -> resolve (page_path c) <> Some g) -> fs' g = fs g).
Proof.
  induction cs as [|c cs IH]; intros i fs ci H N R J.
  - exists fs. cbn [write_categories map]. unfold unlines. cbn [flat_map]. rewrite app_nil_r.
    split; auto. split; auto. split; auto. intros [|k] c E; discriminate.
  - inversion N as [|? ? NI N']; subst.
    cbn [write_categories]. unfold writeCategoryToIndex.
    destruct (emits_putl ($"   " ++ c) fs fi ci H) as (fs1 & E1 & S1 & O1). rewrite E1.
    destruct (R c (or_introl eq_refl)) as (f & Rf & Nf).
    unfold open_out. fold (page_path c). change (docRulePath ++ c ++ $".rst") with (page_path c).
    rewrite Rf.
    destruct (emits_page c (sort_rules (rmap_get m c)) (now i) (fs_set fs1 f []) f []
                (fs_set_same _ _ _)) as (fs2 & E2 & S2 & O2).
    cbn [app] in E2, S2. unfold stream_at at 1 in E2. cbn [length] in E2. rewrite E2.
    assert (S1' : fs2 fi = Some (ci ++ ($"   " ++ c) ++ [NL])).
    { rewrite O2 by auto. rewrite fs_set_other; auto. }
    destruct (IH (S i) fs2 _ S1' N') as (fs3 & E3 & S3 & P3 & O3).
    { intros d I. apply R. now right. }
    { intros d e I1 I2. apply J; now right. }
    assert (T : (ci ++ ($"   " ++ c) ++ [NL]) ++ unlines (map (fun c0 => $"   " ++ c0) cs)
                = ci ++ unlines (map (fun c0 => $"   " ++ c0) (c :: cs))).
    { cbn [map]. rewrite unlines_cons, <- !app_assoc. reflexivity. }
    rewrite T in *. exists fs3. split; auto. split; auto. split.
    + intros [|k] d E; cbn [nth_error] in E.
      * injection E as <-. unfold content. rewrite Rf, Nat.add_0_r. rewrite O3; auto.
        intros d I X. apply NI. rewrite <- Rf in X.
        rewrite (J c d); simpl; auto.
      * rewrite <- Nat.add_succ_comm. now apply P3.
    + intros g Ng Fg. rewrite O3; auto.
      * rewrite O2, fs_set_other, O1; auto; intros ->; apply (Fg c); simpl; auto.
      * intros d I. apply Fg. now right.
Qed.

(** When nothing can be opened nothing changes. *)
Definition deaf : stream := {| s_file := None; s_off := 0 |}.
Definition ignored (w : fsys * stream -> fsys * stream) : Prop := forall fs, w (fs, deaf) = (fs, deaf).
Lemma ignored_put d : ignored (put d).
Proof. intros fs. reflexivity. Qed.
Lemma ignored_times n d : ignored (put_times n d).
Proof. induction n; intros fs; auto. cbn [put_times]. rewrite ignored_put. apply IHn. Qed.
Lemma ignored_header c : ignored (writeCategoryHeader c).
Proof. intros fs. unfold writeCategoryHeader, putl. rewrite ignored_put, ignored_times. reflexivity. Qed.
Lemma ignored_thresholds m : ignored (writeThresholds m).
Proof. induction m as [|[k v] m IH]; intros fs; auto. cbn [writeThresholds]. apply IH. Qed.
Lemma ignored_rule r : ignored (writeRuleToCategory r).
Proof.
  intros fs. unfold writeRuleToCategory, putl. rewrite ignored_put, ignored_times.
  rewrite !ignored_put.
  destruct (d_thresholds r) as [|e m]; [|rewrite ignored_thresholds, ignored_put];
    destruct (d_enableSuppress r); rewrite ?ignored_put; destruct (d_additional r); auto.
Qed.
Lemma ignored_rules rs : ignored (write_rules rs).
Proof.
  unfold write_rules. induction rs as [|r rs IH]; intros fs; auto.
  cbn [fold_left]. rewrite ignored_rule. apply IH.
Qed.
Lemma ignored_categories sort_rules now m cs : forall i,
  ignored (write_categories (fun _ => None) sort_rules now m cs i).
Proof.
  induction cs as [|c cs IH]; intros i fs; auto.
  cbn [write_categories]. unfold writeCategoryToIndex, putl. rewrite ignored_put.
  unfold open_out. fold deaf. rewrite ignored_header, ignored_rules. apply IH.
Qed.

(** Sorted duplicate-free arrangements are unique. *)
Lemma sorted_unique {A} (key : A -> str) : forall l1 l2,
  Permutation l1 l2 -> NoDup (map key l1) ->
  StronglySorted not_after (map key l1) -> StronglySorted not_after (map key l2) -> l1 = l2.
Proof.
  induction l1 as [|a l1 IH]; intros l2 P N S1 S2.
  - now apply Permutation_nil in P.
  - destruct l2 as [|b l2]; [now apply Permutation_sym, Permutation_nil in P|].
    cbn [map] in *. inversion N as [|? ? NI N']; subst.
    apply sorted_nodup_strict in S1; auto.
    assert (N2 : NoDup (key b :: map key l2)).
    { change (NoDup (map key (b :: l2))). apply (Permutation_NoDup (Permutation_map key P)).
      now constructor. }
    apply sorted_nodup_strict in S2; auto.
    inversion S1 as [|? ? S1' F1]; inversion S2 as [|? ? S2' F2]; subst.
    assert (a = b).
    { assert (Ia : In a (b :: l2)) by (apply (Permutation_in _ P); simpl; auto).
      assert (Ib : In b (a :: l1)) by (apply (Permutation_in _ (Permutation_sym P)); simpl; auto).
      destruct Ia as [|Ia]; auto. destruct Ib as [|Ib]; auto. exfalso.
      rewrite Forall_forall in F1, F2.
      pose proof (F1 _ (in_map key _ _ Ib)) as X. pose proof (F2 _ (in_map key _ _ Ia)) as Y.
      apply str_ltb_before in X, Y. pose proof (str_ltb_trans _ _ _ X Y) as Z.
      now rewrite str_ltb_irrefl in Z. }
    subst b. f_equal. apply Permutation_cons_inv in P.
    apply IH; auto.
    + clear - S1'. induction S1' as [|x l S IH F]; constructor; auto.
      eapply Forall_impl; [|exact F]. intros y X Y. apply str_ltb_before in X, Y.
      pose proof (str_ltb_trans _ _ _ X Y) as Z. now rewrite str_ltb_irrefl in Z.
    + clear - S2'. induction S2' as [|x l S IH F]; constructor; auto.
      eapply Forall_impl; [|exact F]. intros y X Y. apply str_ltb_before in X, Y.
      pose proof (str_ltb_trans _ _ _ X Y) as Z. now rewrite str_ltb_irrefl in Z.
Qed.
