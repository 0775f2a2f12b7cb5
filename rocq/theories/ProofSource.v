(** * Proofs about source lines, suppression and gating *)
From Verif Require Import Base BaseFacts ModelResults ModelConfig SpecFilter ProofFilter
  ModelSource SpecSource.
From Coq Require Import Lia.
Local Arguments lit : simpl never.
Local Arguments baseAction : simpl never.
Local Arguments markedAsSuppress : simpl never.

(** ** Lines *)
Lemma split_nl_spec s : forall a b, split_nl s = (a, b) ->
  newline_free a /\ ((s = a ++ NL :: b) \/ (s = a /\ b = [])).
Proof.
  induction s as [|c s IH]; simpl; intros a b H.
  - inversion H; subst. split; [intros []|auto].
  - destruct (ascii_eqb c NL) eqn:E.
    + apply ascii_eqb_eq in E. inversion H; subst. split; [intros []|]. now left.
    + destruct (split_nl s) as [a' b'] eqn:Es. inversion H; subst.
      destruct (IH _ _ eq_refl) as [Hf [Hs|[Hs ->]]]; subst; split.
      * intros [Hc|Hc]; [|now apply Hf]. apply ascii_eqb_neq in E. congruence.
      * now left.
      * intros [Hc|Hc]; [|now apply Hf]. apply ascii_eqb_neq in E. congruence.
      * now right.
Qed.

Lemma numbered_snd {A} (l : list A) n : map snd (numbered n l) = l.
Proof. revert n; induction l; simpl; intros; f_equal; auto. Qed.

Lemma lines_loop_spec fuel : forall s n, length s <= fuel ->
  exists ls, lines_of s ls /\ lines_loop fuel s n = numbered n ls.
Proof.
  induction fuel as [|fuel IH]; intros s n Hf.
  - destruct s; [|simpl in Hf; lia]. exists []. split; [split; [constructor|now left]|reflexivity].
  - destruct s as [|c s].
    { exists []. split; [split; [constructor|now left]|reflexivity]. }
    unfold lines_loop; fold lines_loop.
    destruct (split_nl (c :: s)) as [a b] eqn:E.
    destruct (split_nl_spec _ _ _ E) as [Hfree [Hs|[Hs ->]]].
    + destruct (IH b (n + 1)%Z) as (ls & [Hall Hls] & Hl).
      { rewrite Hs in Hf. rewrite app_length in Hf. simpl in Hf. lia. }
      exists (a :: ls). split.
      * split; [constructor; auto|]. cbn [map concat].
        destruct Hls as [Hls|(Hne & Hend & Hls)].
        -- left. rewrite Hs, Hls, <- app_assoc. reflexivity.
        -- right. split; [discriminate|]. split.
           ++ intros x Hx. rewrite Hs in Hx.
              destruct (exists_last Hne) as (b' & y & ->).
              assert (y = NL).
              { replace (a ++ NL :: b' ++ [y]) with ((a ++ NL :: b') ++ [y]) in Hx
                  by now rewrite <- app_assoc.
                apply app_inj_tail in Hx. tauto. }
              subst. now apply (Hend b').
           ++ rewrite Hls, Hs. rewrite <- !app_assoc. reflexivity.
      * simpl. now rewrite Hl.
    + exists [a]. split.
      * split; [constructor; auto|]. right. split; [discriminate|]. split.
        -- intros x Hx. apply Hfree. rewrite <- Hs, Hx. apply in_or_app. simpl; auto.
        -- cbn [map concat]. now rewrite app_nil_r, Hs.
      * simpl. destruct fuel; reflexivity.
Qed.

Lemma first_line_unique a b x y :
  newline_free a -> newline_free b -> a ++ [NL] ++ x = b ++ [NL] ++ y -> a = b /\ x = y.
Proof.
  revert b; induction a as [|c a IH]; intros [|d b] Ha Hb E; simpl in E; inversion E; subst; auto.
  - destruct Hb; simpl; auto.
  - destruct Ha; simpl; auto.
  - destruct (IH b) as [-> ->]; auto; intros H; [apply Ha|apply Hb]; simpl; auto.
Qed.
Lemma joined_unique l1 : forall l2,
  Forall newline_free l1 -> Forall newline_free l2 ->
  concat (map (fun l => l ++ [NL]) l1) = concat (map (fun l => l ++ [NL]) l2) -> l1 = l2.
Proof.
  induction l1 as [|a l1 IH]; intros [|b l2] H1 H2 E; simpl in E; auto.
  - destruct b; discriminate.
  - destruct a; discriminate.
  - inversion H1; inversion H2; subst. rewrite <- !app_assoc in E.
    apply first_line_unique in E as [-> E]; auto. f_equal. auto.
Qed.
Lemma joined_last ls : ls <> [] -> exists a, concat (map (fun l => l ++ [NL]) ls) = a ++ [NL].
Proof.
  intros H. destruct (exists_last H) as (l' & x & ->). rewrite map_app, concat_app. simpl.
  rewrite app_nil_r, app_assoc. eauto.
Qed.
Lemma lines_of_unique s l1 l2 : lines_of s l1 -> lines_of s l2 -> l1 = l2.
Proof.
  intros [F1 H1] [F2 H2]. apply joined_unique; auto.
  destruct H1 as [H1|(N1 & E1 & H1)], H2 as [H2|(N2 & E2 & H2)]; try congruence; exfalso.
  - destruct l1 as [|x l1]; [simpl in H1; congruence|].
    destruct (joined_last (x :: l1)) as [a Ha]; [discriminate|]. apply (E2 a). congruence.
  - destruct l2 as [|x l2]; [simpl in H2; congruence|].
    destruct (joined_last (x :: l2)) as [a Ha]; [discriminate|]. apply (E1 a). congruence.
Qed.
Lemma source_lines_iff s ls : lines_of s ls <-> source_lines s = numbered 1 ls.
Proof.
  unfold source_lines. destruct (lines_loop_spec (length s) s 1 (le_n _)) as (l & Hl & ->). split.
  - intros H. now rewrite (lines_of_unique _ _ _ H Hl).
  - intros H. apply (f_equal (map snd)) in H. rewrite !numbered_snd in H. now subst.
Qed.

(** ** Annotations *)
Lemma find_bracket_none s : find_char "["%char s = None <-> ~ has_bracket s.
Proof.
  unfold has_bracket. rewrite find_char_none. reflexivity.
Qed.
Lemma prefixb_len p s : prefixb p s = true -> length p <= length s.
Proof. intros H. apply prefixb_spec in H as [t ->]. rewrite app_length. lia. Qed.

Lemma aha_plain annotation name comment :
  ~ has_bracket name ->
  attributeHasAnnotation annotation name comment = (str_eqb name annotation, comment).
Proof. intros H. unfold attributeHasAnnotation. apply find_bracket_none in H. now rewrite H. Qed.

Lemma aha_bracket annotation name comment :
  has_bracket name ->
  fst (attributeHasAnnotation annotation name comment) = prefixb name annotation.
Proof.
  intros H. unfold attributeHasAnnotation.
  destruct (find_char "["%char name) eqn:E.
  2:{ apply find_bracket_none in E. contradiction. }
  destruct (Nat.ltb_spec (length annotation) (length name)) as [L|L]; simpl.
  - destruct (prefixb name annotation) eqn:P; auto. apply prefixb_len in P. lia.
  - destruct (prefixb name annotation) eqn:P; auto. simpl.
    destruct (find_char _ (skipn _ _)); [|reflexivity].
    destruct (match rev annotation with [] => false | c :: _ => _ end); reflexivity.
Qed.

Lemma aha_comment_body name rest body comment :
  has_bracket name -> bracket_comment rest body ->
  attributeHasAnnotation (name ++ rest) name comment = (true, body).
Proof.
  intros H (a & Ha & ->). unfold attributeHasAnnotation.
  destruct (find_char "["%char name) eqn:E.
  2:{ apply find_bracket_none in E. contradiction. }
  rewrite (proj2 (prefixb_spec name (name ++ a ++ $"[" ++ body ++ $"]"))) by eauto.
  destruct (Nat.ltb_spec (length (name ++ a ++ $"[" ++ body ++ $"]")) (length name)) as [L|L].
  { rewrite app_length in L. lia. }
  simpl orb. cbv iota. rewrite skipn_app_exact.
  assert (F : find_char "["%char (a ++ $"[" ++ body ++ $"]") = Some (length a)).
  { apply find_char_intro. exact Ha. }
  rewrite F.
  replace (rev (name ++ a ++ $"[" ++ body ++ $"]")) with ("]"%char :: rev (name ++ a ++ $"[" ++ body)).
  2:{ rewrite !app_assoc, (rev_app_distr _ $"]"). reflexivity. }
  rewrite ascii_eqb_refl. f_equal.
  unfold substr.
  replace (name ++ a ++ $"[" ++ body ++ $"]") with ((name ++ a ++ $"[") ++ body ++ $"]")
    by now rewrite <- !app_assoc.
  replace (length name + length a + 1) with (length (name ++ a ++ $"["))
    by (rewrite !app_length; simpl; change (length $"[") with 1; lia).
  rewrite skipn_app_exact.
  replace (length ((name ++ a ++ $"[") ++ body ++ $"]") - (length name + length a) - 2) with (length body).
  2:{ rewrite !app_length. change (length $"[") with 1. change (length $"]") with 1. lia. }
  apply firstn_app_exact.
Qed.

Lemma aha_comment_none name rest comment :
  has_bracket name -> (forall body, ~ bracket_comment rest body) ->
  attributeHasAnnotation (name ++ rest) name comment = (true, comment).
Proof.
  intros H Hn. unfold attributeHasAnnotation.
  destruct (find_char "["%char name) eqn:E.
  2:{ apply find_bracket_none in E. contradiction. }
  rewrite (proj2 (prefixb_spec name (name ++ rest))) by eauto.
  destruct (Nat.ltb_spec (length (name ++ rest)) (length name)) as [L|L].
  { rewrite app_length in L. lia. }
  simpl orb. cbv iota. rewrite skipn_app_exact.
  destruct (find_char "["%char rest) as [k|] eqn:F; [|reflexivity].
  destruct (find_char_some _ _ _ F) as (a & b & -> & <- & Ha).
  destruct b as [|y b _] using rev_ind.
  - rewrite app_assoc, rev_app_distr. reflexivity.
  - replace (name ++ a ++ "["%char :: b ++ [y]) with ((name ++ a ++ "["%char :: b) ++ [y])
      by (rewrite <- !app_assoc; reflexivity).
    rewrite rev_app_distr. cbn [rev app].
    destruct (ascii_eqb y "]"%char) eqn:Ey; [|reflexivity].
    apply ascii_eqb_eq in Ey. subst y. exfalso. apply (Hn b). exists a. split; auto.
Qed.

Lemma annots_loop_fst name comment annots :
  fst (annots_loop annots name comment) = true <->
  exists a, In a annots /\ fst (attributeHasAnnotation a name []) = true.
Proof.
  revert comment; induction annots as [|a annots IH]; intros comment; simpl.
  - split; [discriminate|]. intros (x & [] & _).
  - assert (X : fst (attributeHasAnnotation a name comment) = fst (attributeHasAnnotation a name [])).
    { unfold attributeHasAnnotation. destruct (find_char "["%char name); [|reflexivity].
      destruct (_ || _); [reflexivity|]. destruct (find_char _ (skipn _ _)); [|reflexivity].
      destruct (match rev a with [] => false | c :: _ => _ end); reflexivity. }
    destruct (attributeHasAnnotation a name comment) as [[|] c] eqn:E; simpl in X |- *.
    + split; auto. intros _. exists a. split; auto.
    + rewrite IH. split; intros (x & Hx & Hm); [eauto|].
      destruct Hx as [<-|Hx]; [congruence|eauto].
Qed.

Lemma base_action annots r comment :
  fst (baseAction annots $"suppress" r comment) = true <->
  exists l, annots = Some l /\ hides_rule r l.
Proof.
  unfold baseAction, declHasOCLintAttribute, declHasAttribute. destruct annots as [l|].
  2:{ simpl. split; [discriminate|]. intros (l & H & _). discriminate. }
  rewrite annots_loop_fst.
  assert (B : has_bracket ($"oclint:" ++ $"suppress" ++ $"[" ++ r ++ $"]")).
  { unfold has_bracket. rewrite !in_app_iff. do 2 right. left. left. reflexivity. }
  split.
  - intros (a & Ha & Hm). exists l. split; auto. rewrite aha_bracket in Hm by exact B.
    apply prefixb_spec in Hm as [t ->]. exists t.
    replace ($"oclint:suppress[" ++ r ++ $"]" ++ t)
      with (($"oclint:" ++ $"suppress" ++ $"[" ++ r ++ $"]") ++ t); auto.
    rewrite <- !app_assoc. reflexivity.
  - intros (l' & [= <-] & t & Ht). eexists. split; [exact Ht|].
    rewrite aha_bracket by exact B. apply prefixb_spec. exists t.
    rewrite <- !app_assoc. reflexivity.
Qed.

Scheme decl_ind' := Induction for decl Sort Prop
with methodinfo_ind' := Induction for methodinfo Sort Prop
with methodctx_ind' := Induction for methodctx Sort Prop
with categories_ind' := Induction for categories Sort Prop.

Lemma action_iff : forall d r comment,
  fst (declHasActionAttribute d $"suppress" r comment) = true <->
  exists l, consulted d l /\ hides_rule r l.
Proof.
  fix IH 1.
  assert (IHc : forall cats r comment,
    fst (categoriesHave cats $"suppress" r comment) = true <->
    exists l, consulted_in cats l /\ hides_rule r l).
  { fix IHc 1. intros [|[d|] rest] r comment; simpl.
    - split; [discriminate|]. intros (l & H & _). inversion H.
    - specialize (IH d r comment). specialize (IHc rest r).
      destruct (declHasActionAttribute d $"suppress" r comment) as [[|] c]; simpl in IH |- *.
      + split; auto. intros _. destruct (proj1 IH eq_refl) as (l & H & Hr).
        exists l. split; auto. now constructor.
      + rewrite IHc. split; intros (l & H & Hr).
        * exists l. split; auto. now apply ci_later.
        * inversion H; subst; [|eauto]. exfalso.
          assert (false = true) by (apply IH; eauto). discriminate.
    - rewrite (IHc rest r comment). split; intros (l & H & Hr).
      + exists l. split; auto. now apply ci_later.
      + inversion H; subst. eauto. }
  intros [annots [[acc prop ctx]|]] r comment; simpl.
  2:{ rewrite base_action. split; intros (l & H & Hr).
      - inversion H; subst. exists l. split; auto. constructor.
      - inversion H; subst. eauto. }
  pose proof (base_action (Some annots) r comment) as B1.
  destruct (baseAction (Some annots) $"suppress" r comment) as [[|] c1]; simpl in B1 |- *.
  { split; auto. intros _. destruct (proj1 B1 eq_refl) as (l & [= <-] & Hr).
    exists annots. split; auto. constructor. }
  assert (N1 : ~ hides_rule r annots).
  { intros Hr. assert (false = true) by (apply B1; eauto). discriminate. }
  pose proof (base_action prop r c1) as B2.
  destruct (if acc then baseAction prop $"suppress" r c1 else (false, c1)) as [[|] c2] eqn:E2; simpl.
  { split; auto. intros _. destruct acc; [|discriminate]. rewrite E2 in B2.
    destruct (proj1 B2 eq_refl) as (l & -> & Hr). exists l. split; auto. constructor. }
  assert (N2 : acc = true -> forall l, prop = Some l -> ~ hides_rule r l).
  { intros -> l -> Hr. rewrite E2 in B2. simpl in B2.
    assert (false = true) by (apply B2; eauto). discriminate. }
  destruct ctx as [|look|[cats|]]; simpl.
  - split; [discriminate|]. intros (l & H & Hr). exfalso.
    inversion H; subst; [now apply N1 | now eapply N2; eauto].
  - rewrite base_action. split; intros (l & H & Hr).
    + subst. exists l. split; auto. constructor.
    + inversion H; subst; [now destruct N1 | now exfalso; eapply N2; eauto | eauto].
  - rewrite IHc. split; intros (l & H & Hr).
    + exists l. split; auto. now constructor.
    + inversion H; subst; [now destruct N1 | now exfalso; eapply N2; eauto | eauto].
  - split; [discriminate|]. intros (l & H & Hr). exfalso.
    inversion H; subst; [now apply N1 | now eapply N2; eauto].
Qed.

Lemma marked_iff d r : markedAsSuppress d (Some r) = true <-> suppresses d r.
Proof.
  unfold markedAsSuppress, suppresses. rewrite orb_true_iff, action_iff.
  assert (X : fst (declHasOCLintAttribute (Some (annotations_of d)) $"suppress" []) = true
              <-> hides_all (annotations_of d)).
  { unfold declHasOCLintAttribute, declHasAttribute. rewrite annots_loop_fst. unfold hides_all.
    change ($"oclint:" ++ $"suppress") with $"oclint:suppress".
    assert (B : ~ has_bracket $"oclint:suppress").
    { intros H. vm_compute in H. repeat (destruct H as [H|H]; [discriminate|]). exact H. }
    split.
    - intros (a & Ha & Hm). rewrite aha_plain in Hm by exact B. apply str_eqb_eq in Hm. now subst.
    - intros Ha. eexists. split; [exact Ha|]. rewrite aha_plain by exact B. apply str_eqb_refl. }
  tauto.
Qed.

Lemma parents_iff p r :
  markedParentsAsSuppress p (Some r) = true <-> exists d, on_chain p d /\ suppresses d r.
Proof.
  induction p as [|n up IH others]; simpl.
  - split; [discriminate|]. intros (d & H & _). inversion H.
  - destruct n as [d| |].
    + destruct (markedAsSuppress d (Some r)) eqn:E.
      * split; auto. intros _. exists d. split; [constructor|]. now apply marked_iff.
      * rewrite IH. split; intros (d' & H & Hs).
        -- exists d'. split; auto. now constructor.
        -- inversion H; subst; eauto. apply marked_iff in Hs. congruence.
    + rewrite IH. split; intros (d' & H & Hs).
      * exists d'. split; auto. now constructor.
      * inversion H; subst; eauto.
    + split; [discriminate|]. intros (d' & H & Hs). inversion H.
Qed.

(** ** Lines suppressed *)
Lemma commentLines_in u line : In line (commentLines u) <-> comment_on u line.
Proof.
  unfold commentLines, comment_on. destruct (u_comments u) as [l|].
  2:{ split; [intros []|]. intros (l & c & H & _). discriminate. }
  rewrite in_flat_map. split.
  - intros ([c|] & Hc & Hl); [|destruct Hl].
    destruct (find_sub $"//!OCLINT" (cm_text c)) eqn:E; [|destruct Hl].
    destruct Hl as [<-|[]]. exists l, c. repeat split; auto.
    destruct (find_sub_some _ _ _ E) as (a & b & Eq & _). eauto.
  - intros (l' & c & [= <-] & Hc & <- & a & b & E). exists (Some c). split; auto.
    destruct (find_sub $"//!OCLINT" (cm_text c)) eqn:F; [simpl; auto|].
    exact (proj1 (find_sub_none _ _) F a b E).
Qed.
Lemma existsb_Zeqb line ls : existsb (Z.eqb line) ls = true <-> In line ls.
Proof.
  rewrite existsb_exists. split.
  - intros (x & H & E). apply Z.eqb_eq in E. now subst.
  - intros H. exists line. split; auto. apply Z.eqb_refl.
Qed.
Lemma inRanges_collect u r line :
  inRanges line (collectRanges u r) = true <-> in_suppressed_decl u r line.
Proof.
  unfold inRanges, collectRanges, in_suppressed_decl. rewrite existsb_exists. split.
  - intros ([a b] & H & E). apply in_flat_map in H as (t & Ht & H).
    destruct (td_validLoc t) eqn:E1; [|destruct H]. destruct (td_inMainFile t) eqn:E2; [|destruct H].
    simpl in H. apply in_flat_map in H as (v & Hv & H).
    destruct (markedAsSuppress (vd_decl v) (Some r)) eqn:E3; [|destruct H].
    destruct H as [[= <- <-]|[]]. apply marked_iff in E3.
    apply andb_true_iff in E as [A B]. apply Z.leb_le in A, B. simpl in A, B.
    exists t, v. repeat split; auto.
  - intros (t & v & Ht & E1 & E2 & Hv & Hs & L). exists (vd_startLine v, vd_endLine v). split.
    + apply in_flat_map. exists t. split; auto. rewrite E1, E2. simpl.
      apply in_flat_map. exists v. split; auto. apply marked_iff in Hs. rewrite Hs. simpl; auto.
    + simpl. apply andb_true_iff. split; apply Z.leb_le; lia.
Qed.

(** The caches after a history. *)
Definition lines_asked (hist : list question) (p : str) : option tunit :=
  match filter (fun q => str_eqb (u_path (q_unit q)) p) hist with [] => None | q :: _ => Some (q_unit q) end.

Lemma ask_all_app a : forall b sc, ask_all (a ++ b) sc = ask_all b (ask_all a sc).
Proof. induction a; simpl; intros; auto. Qed.

Lemma lookup_cons {A} (m : list (str * A)) k v k' :
  lookup ((k, v) :: m) k' = if str_eqb k k' then Some v else lookup m k'.
Proof. reflexivity. Qed.

Definition reaches_ranges (u0 : tunit) (q : question) : Prop :=
  (exists r, q_rule q = Some r) /\ ~ comment_on u0 (q_line q).

Definition cache_inv (hist : list question) (sc : scache) : Prop :=
  forall p,
  (match lookup (sc_lines sc) p with
   | None => (forall q, In q hist -> u_path (q_unit q) <> p) /\ lookup (sc_ranges sc) p = None
   | Some ls =>
       exists q0, first_such (fun q => u_path (q_unit q) = p) hist q0 /\ ls = commentLines (q_unit q0)
       /\ match lookup (sc_ranges sc) p with
          | None => forall q, In q hist -> u_path (q_unit q) = p -> ~ reaches_ranges (q_unit q0) q
          | Some rs => exists q1 r1,
              first_such (fun q => u_path (q_unit q) = p /\ reaches_ranges (q_unit q0) q) hist q1
              /\ q_rule q1 = Some r1 /\ rs = collectRanges (q_unit q1) r1
          end
   end).

Lemma first_such_snoc_old {A} (P : A -> Prop) l x y : first_such P l x -> first_such P (l ++ [y]) x.
Proof.
  intros (a & b & -> & H & Hn). exists a, (b ++ [y]). rewrite <- app_assoc. auto.
Qed.
Lemma first_such_snoc_new {A} (P : A -> Prop) l y :
  (forall x, In x l -> ~ P x) -> P y -> first_such P (l ++ [y]) y.
Proof. intros H Hy. exists l, []. auto. Qed.
Lemma first_such_det {A} (P : A -> Prop) l x y : first_such P l x -> first_such P l y -> x = y.
Proof.
  intros (a & b & -> & H & Hn) (a' & b' & E & H' & Hn').
  revert a' E Hn'. induction a as [|z a IH]; intros [|z' a'] E Hn'; simpl in E; inversion E; subst; auto.
  - exfalso. eapply Hn'; [left; reflexivity|assumption].
  - exfalso. eapply Hn; [left; reflexivity|assumption].
  - apply (IH (fun y Hy => Hn y (or_intror Hy)) a'); auto. intros w Hw. apply Hn'. simpl; auto.
Qed.

Lemma cache_inv_fresh : cache_inv [] sc_fresh.
Proof. intros p. simpl. split; auto. Qed.

Lemma comment_on_dec u line : comment_on u line \/ ~ comment_on u line.
Proof.
  destruct (existsb (Z.eqb line) (commentLines u)) eqn:E.
  - left. now apply commentLines_in, existsb_Zeqb.
  - right. intros H. apply commentLines_in, existsb_Zeqb in H. congruence.
Qed.

(** The line cache entry for a path after asking, and the first question about it. *)
Lemma cache_step hist sc q :
  cache_inv hist sc ->
  cache_inv (hist ++ [q]) (snd (shouldSuppress_line (q_line q) (q_unit q) (q_rule q) sc))
  /\ exists q0, first_such (fun x => u_path (q_unit x) = u_path (q_unit q)) (hist ++ [q]) q0
     /\ (fst (shouldSuppress_line (q_line q) (q_unit q) (q_rule q) sc) = true <->
         comment_on (q_unit q0) (q_line q)
         \/ exists q1 r1,
             first_such (fun x => u_path (q_unit x) = u_path (q_unit q) /\ reaches_ranges (q_unit q0) x)
               (hist ++ [q]) q1
             /\ q_rule q1 = Some r1 /\ q_rule q <> None
             /\ in_suppressed_decl (q_unit q1) r1 (q_line q)).
Proof.
  intros Inv.
  set (path := u_path (q_unit q)).
  (* after the line lookup *)
  assert (L : exists q0 sc1,
    lineBasedShouldSuppress (q_line q) (q_unit q) sc
      = (existsb (Z.eqb (q_line q)) (commentLines (q_unit q0)), sc1)
    /\ first_such (fun x => u_path (q_unit x) = path) (hist ++ [q]) q0
    /\ lookup (sc_lines sc1) path = Some (commentLines (q_unit q0))
    /\ sc_ranges sc1 = sc_ranges sc
    /\ (forall p, p <> path -> lookup (sc_lines sc1) p = lookup (sc_lines sc) p)
    /\ match lookup (sc_ranges sc) path with
       | None => forall x, In x hist -> u_path (q_unit x) = path -> ~ reaches_ranges (q_unit q0) x
       | Some rs => exists q1 r1,
           first_such (fun x => u_path (q_unit x) = path /\ reaches_ranges (q_unit q0) x) hist q1
           /\ q_rule q1 = Some r1 /\ rs = collectRanges (q_unit q1) r1
       end).
  { pose proof (Inv path) as I. unfold lineBasedShouldSuppress. fold path.
    destruct (lookup (sc_lines sc) path) as [ls|] eqn:E.
    - destruct I as (q0 & F & -> & R). exists q0, sc. repeat split; auto.
      now apply first_such_snoc_old.
    - destruct I as [N R]. exists q. eexists. split; [reflexivity|]. cbn [sc_lines sc_ranges].
      split; [apply first_such_snoc_new; auto|]. split; [rewrite lookup_cons, str_eqb_refl; auto|].
      split; [reflexivity|]. split.
      + intros p Hp. rewrite lookup_cons. destruct (str_eqb path p) eqn:Ep; auto.
        apply str_eqb_eq in Ep. congruence.
      + rewrite R. intros x Hx Hp. now destruct (N x Hx). }
  destruct L as (q0 & sc1 & EL & F0 & L1 & R1 & Lo & RR).
  assert (Other : forall sc', sc_lines sc' = sc_lines sc1 ->
     (forall p, p <> path -> lookup (sc_ranges sc') p = lookup (sc_ranges sc) p) ->
     match lookup (sc_ranges sc') path with
       | None => forall x, In x (hist ++ [q]) -> u_path (q_unit x) = path -> ~ reaches_ranges (q_unit q0) x
       | Some rs => exists q1 r1,
           first_such (fun x => u_path (q_unit x) = path /\ reaches_ranges (q_unit q0) x) (hist ++ [q]) q1
           /\ q_rule q1 = Some r1 /\ rs = collectRanges (q_unit q1) r1
       end -> cache_inv (hist ++ [q]) sc').
  { intros sc' El Er M p. rewrite El. destruct (str_eq_dec p path) as [->|Hp].
    - rewrite L1. exists q0. repeat split; auto.
    - rewrite Lo, Er by auto. pose proof (Inv p) as I.
      destruct (lookup (sc_lines sc) p) as [ls|].
      + destruct I as (x0 & Fx & -> & Rx). exists x0. split; [now apply first_such_snoc_old|].
        split; [reflexivity|]. destruct (lookup (sc_ranges sc) p) as [rs|].
        * destruct Rx as (x1 & r1 & Fy & A & B). exists x1, r1. repeat split; auto.
          now apply first_such_snoc_old.
        * intros x Hx. apply in_app_or in Hx as [Hx|[<-|[]]]; auto.
      + destruct I as [N R]. split; auto. intros x Hx. apply in_app_or in Hx as [Hx|[<-|[]]]; auto. }
  unfold shouldSuppress_line. rewrite EL.
  destruct (existsb (Z.eqb (q_line q)) (commentLines (q_unit q0))) eqn:Ec.
  - (* suppressed by a comment *)
    assert (C : comment_on (q_unit q0) (q_line q)) by now apply commentLines_in, existsb_Zeqb.
    cbn [fst snd]. split.
    + apply Other; auto.
      * intros p _. now rewrite R1.
      * rewrite R1. destruct (lookup (sc_ranges sc) path) as [rs|].
        -- destruct RR as (x1 & r1 & Fy & A & B). exists x1, r1. repeat split; auto.
           now apply first_such_snoc_old.
        -- intros x Hx Hp. apply in_app_or in Hx as [Hx|[<-|[]]]; auto. intros [_ Hn]. contradiction.
    + exists q0. split; auto. split; auto.
  - assert (C : ~ comment_on (q_unit q0) (q_line q)).
    { intros H. apply commentLines_in, existsb_Zeqb in H. congruence. }
    destruct (q_rule q) as [r|] eqn:Er.
    + unfold rangeBasedShouldSuppress. rewrite R1. fold path.
      assert (RQ : reaches_ranges (q_unit q0) q) by (split; eauto).
      destruct (lookup (sc_ranges sc) path) as [rs|] eqn:Ers.
      * destruct RR as (x1 & r1 & Fy & A & ->). cbn [fst snd].
        assert (Fy' : first_such (fun x => u_path (q_unit x) = path /\ reaches_ranges (q_unit q0) x)
                        (hist ++ [q]) x1) by now apply first_such_snoc_old.
        split.
        -- apply Other; auto; [intros p _; now rewrite R1|]. rewrite R1, Ers. exists x1, r1. auto.
        -- exists q0. split; auto. rewrite inRanges_collect. split.
           ++ intros H. right. exists x1, r1. repeat split; auto. discriminate.
           ++ intros [H|(y & ry & Fyy & B & _ & H)]; [contradiction|].
              assert (y = x1) by (eapply first_such_det; eauto). subst. congruence.
      * cbn [fst snd].
        assert (Fq : first_such (fun x => u_path (q_unit x) = path /\ reaches_ranges (q_unit q0) x)
                        (hist ++ [q]) q).
        { apply first_such_snoc_new; [|split; auto]. intros x Hx [E Hr]. now apply (RR x). }
        split.
        -- apply Other; auto.
           ++ cbn [sc_ranges]. intros p Hp. rewrite lookup_cons.
              destruct (str_eqb path p) eqn:Ep; [apply str_eqb_eq in Ep; congruence|]. reflexivity.
           ++ cbn [sc_ranges]. rewrite lookup_cons, str_eqb_refl. exists q, r. auto.
        -- exists q0. split; auto. rewrite inRanges_collect. split.
           ++ intros H. right. exists q, r. repeat split; auto. discriminate.
           ++ intros [H|(y & ry & Fyy & B & _ & H)]; [contradiction|].
              assert (y = q) by (eapply first_such_det; eauto). subst. congruence.
    + cbn [fst snd]. split.
      * apply Other; auto; [intros p _; now rewrite R1|]. rewrite R1.
        destruct (lookup (sc_ranges sc) path) as [rs|].
        -- destruct RR as (x1 & r1 & Fy & A & B). exists x1, r1. repeat split; auto.
           now apply first_such_snoc_old.
        -- intros x Hx Hp. apply in_app_or in Hx as [Hx|[<-|[]]]; auto. intros [[r Hr] _]. congruence.
      * exists q0. split; auto. split; [discriminate|].
        intros [H|(y & ry & _ & _ & H & _)]; [contradiction|]. now destruct H.
Qed.

Lemma cache_inv_all hist : cache_inv hist (ask_all hist sc_fresh).
Proof.
  induction hist as [|q hist IH] using rev_ind; [apply cache_inv_fresh|].
  rewrite ask_all_app. simpl. now apply cache_step.
Qed.

Lemma answer_iff hist q :
  exists q0, first_such (same_file (q_unit q)) (hist ++ [q]) q0
  /\ (answer hist q = true <->
      comment_on (q_unit q0) (q_line q)
      \/ exists q1 r1,
         first_such (fun x => same_file (q_unit q) x
                       /\ (exists r, q_rule x = Some r) /\ ~ comment_on (q_unit q0) (q_line x))
           (hist ++ [q]) q1
         /\ q_rule q1 = Some r1 /\ q_rule q <> None
         /\ in_suppressed_decl (q_unit q1) r1 (q_line q)).
Proof. exact (proj2 (cache_step hist _ q (cache_inv_all hist))). Qed.

(** ** Long lines *)
Definition cache_own (sc : scache) (u : tunit) (r : str) : Prop :=
  (lookup (sc_lines sc) (u_path u) = None \/ lookup (sc_lines sc) (u_path u) = Some (commentLines u))
  /\ (lookup (sc_ranges sc) (u_path u) = None
      \/ lookup (sc_ranges sc) (u_path u) = Some (collectRanges u r)).
Lemma own_step sc u r line : cache_own sc u r ->
  cache_own (snd (shouldSuppress_line line u (Some r) sc)) u r
  /\ fst (shouldSuppress_line line u (Some r) sc)
     = existsb (Z.eqb line) (commentLines u) || inRanges line (collectRanges u r).
Proof.
  intros [HL HR]. unfold shouldSuppress_line, lineBasedShouldSuppress, rangeBasedShouldSuppress, cache_own.
  destruct HL as [HL|HL], HR as [HR|HR]; rewrite HL;
    destruct (existsb (Z.eqb line) (commentLines u)) eqn:E;
    cbn [fst snd sc_lines sc_ranges orb]; rewrite ?HR;
    cbn [fst snd sc_lines sc_ranges orb]; rewrite ?lookup_cons, ?str_eqb_refl; auto.
Qed.
