(** * Properties C133-C134: scaffolding of rules and reporters *)
From Verif Require Import Base BaseFacts ModelConfig ModelSource SpecSource PropSource ModelScaffold SpecScaffold.

(** ** C133: default names *)

Lemma upper_cases : forall c, isupper c = true ->
  isupper (tolower c) = false /\ isalpha (tolower c) = true /\ islower (tolower c) = true /\ toupper (tolower c) = c.
Proof. intros c. destruct c as [[] [] [] [] [] [] [] []]; vm_compute; intros H; try discriminate; repeat split. Qed.
Lemma upper_not_lower : forall c, isalpha c = true -> isupper c = false -> islower c = true.
Proof. unfold isalpha. intros c A U. rewrite U in A. exact A. Qed.
Lemma lower_not_upper : forall c, isupper c = true -> islower c = false.
Proof. intros c. destruct c as [[] [] [] [] [] [] [] []]; vm_compute; intros H; try discriminate; reflexivity. Qed.

Lemma spaced_identifier : forall rest prev, isalpha prev = true -> Forall (fun x => isalpha x = true) rest ->
  filter isalpha (capitalize_loop prev (lower_add_space rest)) = rest.
Proof.
  induction rest as [|c rest IH]; intros prev P F; [reflexivity|]. inversion F as [|? ? A F']; subst.
  unfold lower_add_space. cbn [flat_map]. fold (lower_add_space rest). destruct (isupper c) eqn:U.
  - destruct (upper_cases c U) as (_ & A' & L & T). cbn [app capitalize_loop].
    replace (islower " "%char) with false by reflexivity. rewrite andb_false_r.
    replace (isalpha " "%char) with false by reflexivity. rewrite L. cbn [negb andb].
    cbn [filter]. replace (isalpha " "%char) with false by reflexivity. rewrite T, A. f_equal. apply IH; auto.
  - cbn [app capitalize_loop]. rewrite P. cbn [negb andb filter]. rewrite A. f_equal. apply IH; auto.
Qed.

(** The rule is selected and listed under its class name, and its documentation points at the
    file the script writes. *)
Theorem c133_identifier_is_the_class : forall c, proper_class c ->
  identifier (default_name c) = c /\ fileName (default_name c) = c ++ $"Rule.cpp".
Proof.
  intros c (first & rest & -> & U & F).
  assert (E : identifier (default_name (first :: rest)) = first :: rest).
  { destruct (upper_cases first U) as (_ & A & _ & T).
    unfold default_name, lower_add_space. cbn [flat_map]. rewrite U. cbn [app skipn]. fold (lower_add_space rest).
    unfold identifier. rewrite T. cbn [filter].
    assert (A' : isalpha first = true) by (unfold isalpha; rewrite U; reflexivity). rewrite A'. f_equal.
    apply spaced_identifier; auto. }
  split; auto. unfold fileName. rewrite E. reflexivity.
Qed.
(** Different classes get different names, written in lower case. *)
Theorem c133_names_differ : forall c c', proper_class c -> proper_class c' -> default_name c = default_name c' -> c = c'.
Proof.
  intros c c' P P' E. rewrite <- (proj1 (c133_identifier_is_the_class c P)), E. apply c133_identifier_is_the_class. exact P'.
Qed.
Theorem c133_lower_case : forall c, Forall (fun x => isupper x = false) (default_name c).
Proof.
  intros c. unfold default_name.
  assert (F : Forall (fun x => isupper x = false) (lower_add_space c)).
  { induction c as [|x c IH]; [constructor|]. unfold lower_add_space. cbn [flat_map]. apply Forall_app. split; [|exact IH].
    destruct (isupper x) eqn:U; repeat constructor; auto. apply upper_cases. exact U. }
  destruct (lower_add_space c); [constructor|]. inversion F; auto.
Qed.
(** It is the name that hides it: the annotation naming it hides the rule, and no other
    scaffolded rule. *)
Lemma default_name_bracket c : Forall (fun x => isalpha x = true) c -> ~ In "]"%char (default_name c).
Proof.
  intros F H. unfold default_name in H.
  assert (G : ~ In "]"%char (lower_add_space c)).
  { clear H. induction F as [|x c A F IH]; [intros []|]. unfold lower_add_space. cbn [flat_map]. intros H. apply in_app_iff in H as [H|H]; [|now apply IH].
    destruct (isupper x) eqn:U; destruct H as [H|H]; try discriminate; try (now destruct H).
    - destruct H as [H|[]]. destruct (upper_cases x U) as (_ & A' & _). rewrite H in A'. discriminate.
    - subst x. discriminate. }
  apply G. clear G. destruct (lower_add_space c); [destruct H|]. right. exact H.
Qed.
Theorem c133_suppressed_by_its_name : forall c c', proper_class c -> proper_class c' ->
  (markedAsSuppress (Decl [$"oclint:suppress[" ++ default_name c ++ $"]"] None) (Some (attributeName (default_name c'))) = true
   <-> c = c').
Proof.
  intros c c' P P'. unfold attributeName.
  assert (B : forall k, proper_class k -> ~ In "]"%char (default_name k)).
  { intros k (first & rest & -> & U & F). apply default_name_bracket. constructor; [unfold isalpha; now rewrite U|exact F]. }
  rewrite c41_suppression_is_per_rule. split.
  - intros [H|(l & C & H)].
    + destruct H as [H|[]]. exfalso. revert H. vm_compute. discriminate.
    + inversion C; subst. apply c133_names_differ; auto. apply (c41_named_rule_only _ _ []); auto.
  - intros <-. right. exists [$"oclint:suppress[" ++ default_name c ++ $"]"].
    split; [constructor|]. exists []. left. now rewrite app_nil_r.
Qed.
(** Findings: a class name starting in lower case loses its first letter; with a digit in it, the
    rule is not selected by its class name. *)
Theorem c133_first_letter_refuted : default_name $"myRule" = $"y rule".
Proof. reflexivity. Qed.
Theorem c133_digit_refuted : exists c, c = $"Use2Spaces" /\ identifier (default_name c) = $"UseSpaces".
Proof. eexists. split; reflexivity. Qed.
Example c133_case : proper_class $"GotoStatement" /\ default_name $"GotoStatement" = $"goto statement".
Proof.
  split; [|reflexivity]. exists "G"%char, $"otoStatement". repeat split. apply Forall_forall. intros x I.
  apply (proj1 (forallb_forall isalpha $"otoStatement")); auto.
Qed.

(** ** Replacing *)

Lemma prefix_app : forall p s : str, prefixb p (p ++ s) = true /\ skipn (length p) (p ++ s) = s.
Proof.
  intros. split; [apply prefixb_spec; exists s; auto|]. rewrite skipn_app, skipn_all, Nat.sub_diag. reflexivity.
Qed.

Lemma same_hole : forall name n s t, no_braces name -> no_braces n -> n ++ $"}}" ++ s = name ++ $"}}" ++ t -> n = name.
Proof.
  induction name as [|x name IH]; intros n s t B Bn E; destruct n as [|y n]; auto.
  - cbn in E. injection E as E _. exfalso. apply (Bn y); [left; auto|right; exact E].
  - cbn in E. injection E as E _. exfalso. apply (B x); [left; auto|right; symmetry; exact E].
  - cbn in E. injection E as E1 E. subst y. f_equal. apply (IH n s t); [intros z I; apply B; right; exact I|intros z I; apply Bn; right; exact I|exact E].
Qed.

Section Replace.
  Variable name new : str.
  Hypothesis B : no_braces name.
  Let old := wildcard name.

  Lemma old_open : exists r, old = "{"%char :: "{"%char :: r.
  Proof. exists (name ++ $"}}"). reflexivity. Qed.
  (** No match where the text does not open a hole. *)
  Lemma no_match : forall s, (forall r, s <> "{"%char :: "{"%char :: r) -> prefixb old s = false.
  Proof.
    intros s H. destruct (prefixb old s) eqn:E; auto. exfalso. apply prefixb_spec in E as [t E].
    destruct old_open as [r R]. rewrite R in E. exact (H _ E).
  Qed.
  Lemma loop_skip : forall fuel c s, prefixb old (c :: s) = false ->
    replace_loop (S fuel) old new (c :: s) = c :: replace_loop fuel old new s.
  Proof. intros fuel c s E. cbn [replace_loop]. rewrite E. reflexivity. Qed.

  Lemma skip_text : forall t s fuel, plain_text t -> 
    replace_loop (length t + fuel) old new (t ++ s) = t ++ replace_loop fuel old new s.
  Proof.
    induction t as [|c t IH]; intros s fuel P; [reflexivity|]. cbn [length Nat.add app].
    rewrite loop_skip.
    - f_equal. apply IH. intros a b E. apply (P (c :: a) b). rewrite E. reflexivity.
    - apply no_match. intros r E. injection E as -> E. destruct (P [] t eq_refl) as (d & b & -> & D).
      injection E as -> _. congruence.
  Qed.
  Lemma plain_no_open : forall t, (forall c, In c t -> c <> "{"%char) -> plain_text t.
  Proof. intros t H a b E. exfalso. apply (H "{"%char); auto. rewrite E. apply in_or_app. right. left. reflexivity. Qed.

  Lemma other_hole : forall n s, no_braces n -> n <> name -> prefixb old ($"{{" ++ n ++ $"}}" ++ s) = false.
  Proof.
    intros n s Bn N. destruct (prefixb old _) eqn:E; auto. exfalso. apply prefixb_spec in E as [t E]. unfold old, wildcard in E.
    rewrite <- !app_assoc in E. apply app_inv_head in E. exact (N (same_hole _ _ _ _ B Bn E)).
  Qed.

  (** What one replacement does to a template. *)
  Definition put (s : segment) : segment :=
    match s with Hole n => if str_eqb n name then Text new else s | Text _ => s end.
  Lemma replace_render : forall l extra, Forall well_formed l ->
    replace_loop (length (render l) + extra) old new (render l) = render (map put l).
  Proof.
    induction l as [|s l IH]; intros extra W; [destruct extra; reflexivity|]. inversion W as [|? ? Ws W']; subst.
    unfold render in *. cbn [map concat]. destruct s as [t|n].
    - cbn [show put]. rewrite app_length, <- Nat.add_assoc, skip_text by exact Ws. rewrite IH by exact W'. reflexivity.
    - cbn [well_formed] in Ws. cbn [put]. destruct (str_eqb n name) eqn:E.
      + apply str_eqb_eq in E. subst n.
        change (show (Hole name)) with old. rewrite app_length.
        destruct old_open as [r R].
        assert (L : length old + length (concat (map show l)) + extra
                    = S (length (concat (map show l)) + (length old - 1 + extra))) by (rewrite R; simpl; lia).
        rewrite L. destruct (prefix_app old (concat (map show l))) as (Pf & Sk).
        assert (C : exists c u, old ++ concat (map show l) = c :: u) by (rewrite R; simpl; eauto).
        destruct C as (c & u & C). rewrite C in *. cbn [replace_loop]. rewrite Pf, Sk.
        rewrite IH by exact W'. reflexivity.
      + assert (N : n <> name) by (intros ->; rewrite str_eqb_refl in E; discriminate).
        change (show (Hole n)) with ($"{{" ++ n ++ $"}}").
        assert (Eq : forall k, replace_loop (length ($"{{" ++ n ++ $"}}") + k) old new (($"{{" ++ n ++ $"}}") ++ concat (map show l))
                     = ($"{{" ++ n ++ $"}}") ++ replace_loop k old new (concat (map show l))).
        { intros k.
          change (($"{{" ++ n ++ $"}}") ++ concat (map show l)) with ("{"%char :: ("{"%char :: n ++ $"}}") ++ concat (map show l)).
          change (length ($"{{" ++ n ++ $"}}") + k) with (S (length ("{"%char :: n ++ $"}}") + k)).
          rewrite loop_skip.
          - change (($"{{" ++ n ++ $"}}") ++ replace_loop k old new (concat (map show l)))
              with ("{"%char :: ("{"%char :: n ++ $"}}") ++ replace_loop k old new (concat (map show l))). f_equal.
            apply skip_text. intros a b Eb. destruct a as [|d a].
            + injection Eb as Eb. destruct n as [|y n]; simpl in Eb; subst b.
              * exists "}"%char, $"}". split; [reflexivity|discriminate].
              * exists y, (n ++ $"}}"). split; [reflexivity|]. intros ->. apply (Ws "{"%char); [left; auto|left; auto].
            + injection Eb as _ Eb. exfalso.
              assert (I : In "{"%char (n ++ ["}"; "}"]%char)) by (rewrite Eb; apply in_or_app; right; left; reflexivity).
              apply in_app_or in I as [I|I]; [apply (Ws _ I); left; auto|]. simpl in I.
              destruct I as [I|[I|[]]]; discriminate.
          - pose proof (other_hole n (concat (map show l)) Ws N) as O.
            rewrite (app_assoc n) in O. exact O. }
        rewrite app_length, <- Nat.add_assoc, Eq, IH by exact W'. reflexivity.
  Qed.
  Lemma replace_template : forall l, Forall well_formed l -> replace (render l) old new = render (map put l).
  Proof. intros l W. unfold replace. rewrite <- (Nat.add_0_r (length (render l))). apply replace_render. exact W. Qed.
End Replace.

Lemma no_braces_plain : forall s, no_braces s -> plain_text s.
Proof. intros s H. apply plain_no_open. intros c I ->. apply (H _ I). left. reflexivity. Qed.
Lemma put_well_formed : forall name new l, no_braces new -> Forall well_formed l -> Forall well_formed (map (put name new) l).
Proof.
  intros name new l N W. rewrite Forall_map. eapply Forall_impl; [|exact W]. intros [t|n] Ws; simpl; auto.
  destruct (str_eqb n name); simpl; auto. apply no_braces_plain. exact N.
Qed.

(** All replacements, one after the other. *)
Fixpoint assoc (kvs : list (str * str)) (n : str) : option str :=
  match kvs with [] => None | (k, v) :: kvs' => if str_eqb n k then Some v else assoc kvs' n end.
Definition puts (kvs : list (str * str)) (l : list segment) : list segment :=
  fold_left (fun l kv => map (put (fst kv) (snd kv)) l) kvs l.
Lemma puts_assoc : forall kvs l, render (puts kvs l) = fill (assoc kvs) l.
Proof.
  intros kvs. induction kvs as [|[k v] kvs IH]; intros l.
  - reflexivity.
  - unfold puts. cbn [fold_left fst snd]. fold (puts kvs (map (put k v) l)). rewrite IH. unfold fill. f_equal.
    rewrite map_map. apply map_ext. intros [t|n]; simpl; auto. destruct (str_eqb n k); reflexivity.
Qed.
Lemma replaces_render : forall kvs l, Forall (fun kv => no_braces (fst kv) /\ no_braces (snd kv)) kvs -> Forall well_formed l ->
  fold_left (fun s kv => replace s (wildcard (fst kv)) (snd kv)) kvs (render l) = render (puts kvs l)
  /\ Forall well_formed (puts kvs l).
Proof.
  induction kvs as [|[k v] kvs IH]; intros l B W; [split; auto|]. inversion B as [|? ? [Bk Bv] B']; subst.
  cbn [fold_left fst snd]. rewrite replace_template by auto. unfold puts. cbn [fold_left fst snd].
  apply IH; auto. apply put_well_formed; auto.
Qed.

(** ** Lines *)
Lemma lines_one : forall body s, ~ In NL body -> lines_of (body ++ NL :: s) = (body ++ [NL]) :: lines_of s.
Proof.
  induction body as [|c body IH]; intros s N; [reflexivity|]. simpl. destruct (ascii_eqb c NL) eqn:E.
  - exfalso. apply N. left. apply ascii_eqb_eq. exact E.
  - rewrite IH; auto. intros I. apply N. right. exact I.
Qed.
Lemma lines_template : forall lines, Forall (fun l => line l) lines -> lines_of (concat (map render lines)) = map render lines.
Proof.
  induction lines as [|l lines IH]; intros F; [reflexivity|]. inversion F as [|? ? (body & E & N) F']; subst.
  simpl. rewrite E, <- app_assoc. simpl. rewrite lines_one by exact N. rewrite IH by exact F'. reflexivity.
Qed.

(** ** The visit functions *)
Lemma last_colon_app : forall n s, last_colon s = None -> last_colon (n ++ $" :" ++ s) = Some (length n).
Proof.
  induction n as [|c n IH]; intros s E.
  - cbn. rewrite E. reflexivity.
  - cbn [app last_colon]. rewrite IH by exact E. reflexivity.
Qed.
Lemma no_colon : forall s, ~ In ":"%char s -> last_colon s = None.
Proof.
  induction s as [|c s IH]; intros N; [reflexivity|]. cbn [last_colon]. rewrite IH by (intros I; apply N; right; exact I).
  destruct (prefixb $" :" (c :: s)) eqn:E; auto. apply prefixb_spec in E as [t E]. exfalso. apply N. rewrite E. right. left. reflexivity.
Qed.
Lemma last_colon_some : forall s n, last_colon s = Some n -> exists t, s = firstn n s ++ $" :" ++ t.
Proof.
  induction s as [|c s IH]; intros n E; [discriminate|]. cbn [last_colon] in E. destruct (last_colon s) as [k|].
  - injection E as <-. destruct (IH k eq_refl) as [t T]. exists t. cbn [firstn app]. f_equal. exact T.
  - destruct (prefixb $" :" (c :: s)) eqn:P; [|discriminate]. injection E as <-. apply prefixb_spec in P as [t P]. exists t. exact P.
Qed.
Lemma search_def_some : forall s x, search_def s = Some x -> exists a t, s = a ++ $"def " ++ x ++ $" :" ++ t.
Proof.
  induction s as [|c s IH]; intros x E; [discriminate|]. cbn [search_def] in E.
  assert (R : search_def s = Some x -> exists a t, c :: s = a ++ $"def " ++ x ++ $" :" ++ t).
  { intros E'. destruct (IH x E') as (a & t & ->). exists (c :: a), t. reflexivity. }
  destruct (prefixb $"def " (c :: s)) eqn:P; [|exact (R E)]. apply prefixb_spec in P as [r P].
  assert (K : skipn 4 (c :: s) = r) by (rewrite P; reflexivity). rewrite K in E.
  destruct (last_colon r) as [[|k]|] eqn:L; auto. injection E as <-. destruct (last_colon_some r _ L) as [t T].
  exists [], t. rewrite P. cbn [app]. f_equal. exact T.
Qed.
Lemma search_def_line : forall indent name rest, node_ok (Def indent name rest) ->
  search_def (node_text (Def indent name rest)) = Some name.
Proof.
  intros indent name rest (Hi & Hn & _ & Hr & _). cbn [node_text]. induction indent as [|c indent IH].
  - set (r := name ++ $" :" ++ rest ++ [NL]).
    assert (L : last_colon r = Some (length name)).
    { unfold r. apply last_colon_app. apply no_colon. intros I. apply in_app_or in I as [I|[I|[]]]; [auto|discriminate]. }
    cbn [app]. change ($"def " ++ r) with ("d"%char :: "e"%char :: "f"%char :: " "%char :: r). cbn [search_def].
    replace (prefixb $"def " ("d"%char :: "e"%char :: "f"%char :: " "%char :: r)) with true by reflexivity.
    cbn [skipn]. rewrite L. destruct name as [|x name]; [contradiction|]. cbn [length]. f_equal. unfold r.
    rewrite firstn_app. replace (S (length name)) with (length (x :: name)) by reflexivity.
    rewrite firstn_all, Nat.sub_diag. cbn [firstn]. apply app_nil_r.
  - rewrite (Hi c) by (left; reflexivity). cbn [app search_def].
    replace (prefixb $"def " (" "%char :: indent ++ $"def " ++ name ++ $" :" ++ rest ++ [NL])) with false by reflexivity.
    apply IH. intros d I. apply Hi. right. exact I.
Qed.
Lemma node_line_line : forall l, node_ok l -> exists body, node_text l = body ++ [NL] /\ ~ In NL body.
Proof.
  intros [i n r|t]; cbn [node_ok node_text].
  - intros (Hi & _ & Hn & _ & Hr). exists (i ++ $"def " ++ n ++ $" :" ++ r). split; [rewrite <- !app_assoc; reflexivity|].
    intros I. repeat (apply in_app_or in I as [I|I]); auto.
    + apply Hi in I. discriminate.
    + simpl in I. intuition discriminate.
    + simpl in I. intuition discriminate.
  - intros [N _]. exists t. auto.
Qed.
Lemma node_list_lines : forall l, Forall node_ok l -> lines_of (node_list l) = map node_text l.
Proof.
  unfold node_list. induction l as [|d l IH]; intros F; [reflexivity|]. inversion F as [|? ? K F']; subst.
  destruct (node_line_line d K) as (body & E & N). cbn [map concat]. rewrite E, <- app_assoc. cbn [app].
  rewrite lines_one by exact N. rewrite IH by exact F'. reflexivity.
Qed.
Lemma blocks : forall l suffix, Forall node_ok l ->
  flat_map (fun s => generate_code_block s suffix) (lines_of (node_list l)) = concat (map (fun n => visit_block (n ++ suffix)) (names l)).
Proof.
  intros l suffix F. rewrite node_list_lines by exact F.
  induction F as [|d l K F IH]; [reflexivity|]. cbn [map flat_map]. rewrite IH. clear IH. destruct d as [i n r|t].
  - cbn [names flat_map app map concat]. fold (names l). f_equal. unfold generate_code_block.
    rewrite search_def_line by exact K. reflexivity.
  - cbn [names flat_map app]. fold (names l). unfold generate_code_block. cbn [node_text].
    destruct (search_def (t ++ [NL])) as [x|] eqn:E; [|reflexivity].
    apply search_def_some in E as (a & z & E). destruct K as [_ K]. exfalso. apply (K a x z E).
Qed.
(** One commented-out visit function for every kind of statement and declaration listed. *)
Theorem c134_visit_functions : forall stmts decls, Forall node_ok stmts -> Forall node_ok decls ->
  visit_ast_nodes (node_list stmts) (node_list decls) = visit_blocks stmts decls.
Proof.
  intros stmts decls Fs Fd. unfold visit_ast_nodes, visit_blocks. rewrite !blocks by assumption. f_equal. f_equal.
  apply map_ext. intros n. rewrite app_nil_r. reflexivity.
Qed.
(** Finding: a definition whose colon is on the next line, as for ObjCImpl in the list of
    declarations, gets none. *)
Theorem c134_every_node_refuted :
  visit_ast_nodes [] ($"    def ObjCImpl" ++ [NL] ++ $"        : DeclNode<ObjCContainer>;" ++ [NL]) = [].
Proof. reflexivity. Qed.

(** ** C134 *)


Section Rule.
  Variable a : ruleargs.
  Hypothesis S : sensible a.

  Lemma letters_no_braces : forall s, Forall (fun x => isalpha x = true) s -> no_braces s.
  Proof. intros s F c I [->| ->]; rewrite Forall_forall in F; specialize (F _ I); discriminate. Qed.
  Lemma class_no_braces : no_braces (ra_class_name a).
  Proof.
    destruct S as ((x & r & -> & U & F) & _). apply letters_no_braces. constructor; auto. unfold isalpha. rewrite U. auto.
  Qed.
  Lemma name_no_braces : no_braces (rule_name a).
  Proof.
    unfold rule_name. destruct (is_nil (ra_name a)); [|apply S]. pose proof class_no_braces as C.
    intros c I. unfold default_name in I. assert (I' : In c (lower_add_space (ra_class_name a))).
    { revert I. generalize (lower_add_space (ra_class_name a)). intros [|z t] I; [contradiction|right; exact I]. }
    clear I. unfold lower_add_space in I'. apply in_flat_map in I' as (x & Ix & I). destruct (isupper x) eqn:U.
    - simpl in I. destruct I as [<-|[<-|[]]]; intros [E|E]; try discriminate.
      + destruct (upper_cases x U) as (_ & A & _ & _). rewrite E in A. discriminate.
      + destruct (upper_cases x U) as (_ & A & _ & _). rewrite E in A. discriminate.
    - destruct I as [<-|[]]. apply C. exact Ix.
  Qed.
  Lemma attributes_no_braces : Forall (fun kv => no_braces (fst kv) /\ no_braces (snd kv)) (wildcard_attributes a).
  Proof.
    assert (K : forall s, forallb (fun c => negb (ascii_eqb c "{"%char) && negb (ascii_eqb c "}"%char)) s = true -> no_braces s).
    { intros s F c I [->| ->]; rewrite forallb_forall in F; specialize (F _ I); discriminate. }
    unfold wildcard_attributes. pose proof name_no_braces. pose proof class_no_braces. destruct S as (_ & _ & C & _ & P).
    assert (no_braces (show_Z (ra_priority a))).
    { apply K. assert (E : ra_priority a = 1%Z \/ ra_priority a = 2%Z \/ ra_priority a = 3%Z) by lia.
      destruct E as [->|[->| ->]]; reflexivity. }
    repeat apply Forall_cons; try apply Forall_nil; cbn [fst snd]; split; auto; apply K; reflexivity.
  Qed.

  Lemma replace_wildcard_fill : forall nodes l, Forall well_formed l ->
    replace_wildcard a nodes (render l) = fill (rule_value a nodes) l.
  Proof.
    intros nodes l W. unfold replace_wildcard.
    destruct (replaces_render (wildcard_attributes a) l attributes_no_braces W) as [E W']. rewrite E.
    rewrite replace_template; auto.
    - change (map (put $"VISIT_AST_NODE_BLOCK" nodes) (puts (wildcard_attributes a) l))
        with (puts [($"VISIT_AST_NODE_BLOCK", nodes)] (puts (wildcard_attributes a) l)).
      assert (P : forall k1 k2 x, puts k2 (puts k1 x) = puts (k1 ++ k2) x) by (intros; unfold puts; rewrite fold_left_app; reflexivity).
      rewrite P, puts_assoc. unfold fill. f_equal. apply map_ext. intros [t|n]; auto.
      replace (assoc (wildcard_attributes a ++ [($"VISIT_AST_NODE_BLOCK", nodes)]) n) with (rule_value a nodes n); auto.
      unfold rule_value, wildcard_attributes, rule_name. cbn [app assoc].
      repeat (match goal with |- context [str_eqb n ?k] => destruct (str_eqb n k); [reflexivity|] end). reflexivity.
    - intros c I [->| ->]; simpl in I; repeat (destruct I as [I|I]; [discriminate|]); contradiction.
  Qed.
  Lemma template_fill : forall nodes lines, template lines ->
    flat_map (replace_wildcard a nodes) (lines_of (concat (map render lines))) = concat (map (fill (rule_value a nodes)) lines).
  Proof.
    intros nodes lines T. rewrite lines_template by (eapply Forall_impl; [|exact T]; intros ? [? ?]; auto).
    induction T as [|l lines [_ W] T IH]; [reflexivity|]. cbn [map flat_map concat]. rewrite IH, replace_wildcard_fill by exact W. reflexivity.
  Qed.
  Lemma cat_join : forall d s, join d (ra_category a) = d ++ $"/" ++ ra_category a
    /\ join (d ++ $"/" ++ ra_category a) (ra_class_name a ++ s) = d ++ $"/" ++ ra_category a ++ $"/" ++ ra_class_name a ++ s.
  Proof.
    intros d s. destruct S as ((x & r & Ec & U & _) & (N & Sl & _) & _). split.
    - unfold join. destruct (ra_category a) as [|c t]; [contradiction|].
      destruct (ascii_eqb c "/"%char) eqn:E; auto. apply ascii_eqb_eq in E. subst c. exfalso. apply Sl. left. auto.
    - rewrite Ec. unfold join. cbn [app]. destruct (ascii_eqb x "/"%char) eqn:E.
      + apply ascii_eqb_eq in E. subst x. discriminate.
      + rewrite <- !app_assoc. reflexivity.
  Qed.
  Lemma no_slash : ~ In "/"%char (ra_category a).
  Proof. apply S. Qed.
End Rule.

(** ** The files written *)
Lemma write_same : forall f p s, write f p s p = Some s.
Proof. intros. unfold write. rewrite str_eqb_refl. reflexivity. Qed.
Lemma write_other : forall f p s q, q <> p -> write f p s q = f q.
Proof. intros f p s q N. unfold write. destruct (str_eqb q p) eqn:E; auto. apply str_eqb_eq in E. contradiction. Qed.
Lemma append_write : forall f p s, append f p s = write f p (text_at f p ++ s).
Proof. intros. unfold append, text_at. destruct (f p); reflexivity. Qed.
Lemma ends_apart : forall (x y : str) a b, a <> b -> x ++ [a] <> y ++ [b].
Proof. intros x y a b N E. apply app_inj_tail in E as [_ E]. contradiction. Qed.

Section Paths.
  Variables (project : str) (a : ruleargs).
  Hypothesis S : sensible a.

  Lemma cpp_not_txt : forall x y : str, x ++ $".cpp" <> y ++ $".txt".
  Proof.
    intros x y. replace $".cpp" with ($".cp" ++ $"p") by reflexivity. replace $".txt" with ($".tx" ++ $"t") by reflexivity.
    rewrite !app_assoc. apply ends_apart. discriminate.
  Qed.
  Lemma rule_file_list : rule_file project a <> rule_list project a.
  Proof.
    unfold rule_file, rule_list. intros E.
    apply (cpp_not_txt (project ++ $"/rules/" ++ ra_category a ++ $"/" ++ ra_class_name a ++ $"Rule")
                       (project ++ $"/rules/" ++ ra_category a ++ $"/CMakeLists")).
    rewrite <- !app_assoc. exact E.
  Qed.
  Lemma test_file_list : rule_test_file project a <> rule_test_list project a.
  Proof.
    unfold rule_test_file, rule_test_list. intros E.
    apply (cpp_not_txt (project ++ $"/test/" ++ ra_category a ++ $"/" ++ ra_class_name a ++ $"RuleTest")
                       (project ++ $"/test/" ++ ra_category a ++ $"/CMakeLists")).
    rewrite <- !app_assoc. exact E.
  Qed.
  Lemma no_deeper : forall (d x s : str), ~ In "/"%char s -> project ++ d ++ ra_category a ++ $"/" ++ x <> project ++ d ++ s.
  Proof.
    intros d x s N E. apply app_inv_head in E. apply app_inv_head in E. apply N. rewrite <- E. apply in_or_app. right. left. reflexivity.
  Qed.
  Lemma literal_no_slash : ~ In "/"%char $"CMakeLists.txt".
  Proof. simpl. intuition discriminate. Qed.
  Lemma rule_file_root : rule_file project a <> all_rules_list project.
  Proof. apply (no_deeper $"/rules/" (ra_class_name a ++ $"Rule.cpp") _ literal_no_slash). Qed.
  Lemma rule_list_root : rule_list project a <> all_rules_list project.
  Proof. apply (no_deeper $"/rules/" $"CMakeLists.txt" _ literal_no_slash). Qed.
  Lemma test_file_root : rule_test_file project a <> all_tests_list project.
  Proof. apply (no_deeper $"/test/" (ra_class_name a ++ $"RuleTest.cpp") _ literal_no_slash). Qed.
  Lemma test_list_root : rule_test_list project a <> all_tests_list project.
  Proof. apply (no_deeper $"/test/" $"CMakeLists.txt" _ literal_no_slash). Qed.

End Paths.

(** One template copied. *)
Lemma copy_template_spec : forall project a f folder kind suffix text stmts decls,
  sensible a ->
  let dst := project ++ $"/" ++ folder ++ $"/" ++ ra_category a ++ $"/" ++ ra_class_name a ++ suffix ++ $".cpp" in
  let t := project ++ $"/template/" ++ kind ++ suffix ++ $".tmpl" in
  In folder [$"rules"; $"test"] -> kind ++ suffix <> [] -> ~ In "/"%char (kind ++ suffix) ->
  f t = Some text ->
  f (project ++ $"/template/ClangStmtNodes") = Some stmts -> f (project ++ $"/template/ClangDeclNodes") = Some decls ->
  exists f1, copy_template project f (join (project ++ $"/" ++ folder) (ra_category a)) kind suffix a = (f1, Val tt)
    /\ f1 dst = Some (flat_map (replace_wildcard a (visit_ast_nodes stmts decls)) (lines_of text))
    /\ forall q, q <> dst -> f1 q = f q.
Proof.
  intros project a f folder kind suffix text stmts decls Sa dst t If Nk Ns Ft Fs Fd.
  assert (Off : forall r, project ++ $"/template/" ++ r <> dst).
  { intros r E. unfold dst in E. apply app_inv_head in E. destruct If as [<-|[<-|[]]]; discriminate. }
  unfold copy_template. destruct (cat_join a Sa (project ++ $"/" ++ folder) (suffix ++ $".cpp")) as [-> J]. rewrite J.
  replace ((project ++ $"/" ++ folder) ++ $"/" ++ ra_category a ++ $"/" ++ ra_class_name a ++ suffix ++ $".cpp") with dst
    by (unfold dst; rewrite <- !app_assoc; reflexivity).
  assert (Jt : join (template_dir project) (kind ++ suffix ++ $".tmpl") = t).
  { unfold t, template_dir, join. rewrite (app_assoc kind suffix). destruct (kind ++ suffix) as [|c r] eqn:E; [contradiction|].
    cbn [app]. destruct (ascii_eqb c "/"%char) eqn:Ec; [apply ascii_eqb_eq in Ec; subst c; exfalso; apply Ns; left; auto|].
    rewrite <- app_assoc. reflexivity. }
  rewrite Jt.
  replace (join (template_dir project) $"ClangStmtNodes") with (project ++ $"/template/ClangStmtNodes")
    by (unfold template_dir, join; cbn; rewrite <- app_assoc; reflexivity).
  replace (join (template_dir project) $"ClangDeclNodes") with (project ++ $"/template/ClangDeclNodes")
    by (unfold template_dir, join; cbn; rewrite <- app_assoc; reflexivity).
  rewrite (write_other f dst [] t) by apply Off. rewrite Ft.
  rewrite (write_other f dst [] (project ++ $"/template/ClangStmtNodes")) by apply (Off $"ClangStmtNodes"). rewrite Fs.
  rewrite (write_other f dst [] (project ++ $"/template/ClangDeclNodes")) by apply (Off $"ClangDeclNodes"). rewrite Fd.
  eexists. split; [reflexivity|]. split.
  - apply write_same.
  - intros q N. rewrite !write_other by exact N. reflexivity.
Qed.

(** One list registered with its parent. *)
Lemma registered : forall f p parent step, p <> parent ->
  let g := add_path_to_cmake_lists f p parent step in
  g p = Some (text_at f p)
  /\ g parent = (match f p with Some _ => f parent | None => Some (text_at f parent ++ step) end)
  /\ forall q, q <> p -> q <> parent -> g q = f q.
Proof.
  intros f p parent step N. unfold add_path_to_cmake_lists, isfile. destruct (f p) as [s|] eqn:E.
  - repeat split; auto. unfold text_at. rewrite E. reflexivity.
  - rewrite !append_write. unfold text_at at 1 2. rewrite E. cbn [app]. split; [|split].
    + rewrite write_other, write_same by exact N. unfold text_at. rewrite E. reflexivity.
    + rewrite write_same. unfold text_at. rewrite write_other by auto. reflexivity.
    + intros q N1 N2. rewrite !write_other by auto. reflexivity.
Qed.

Lemma under_apart : forall (project d d' x y : str), (forall r r', d ++ r <> d' ++ r') -> project ++ d ++ x <> project ++ d' ++ y.
Proof. intros project d d' x y N E. apply app_inv_head in E. apply (N x y E). Qed.

Section Scaffold.
  Variables (project : str) (f : files) (a : ruleargs).
  Variables text tests stmts decls : str.
  Hypothesis Sa : sensible a.
  Hypothesis Ty : rule_type (ra_rule_type a).
  Hypothesis Fr : f (rule_template project a) = Some text.
  Hypothesis Ft : f (test_template project) = Some tests.
  Hypothesis Fs : f (project ++ $"/template/ClangStmtNodes") = Some stmts.
  Hypothesis Fd : f (project ++ $"/template/ClangDeclNodes") = Some decls.

  Lemma rt : forall x y, project ++ $"/rules/" ++ x <> project ++ $"/test/" ++ y.
  Proof. intros. apply under_apart. discriminate. Qed.
  Lemma tr : forall x y, project ++ $"/test/" ++ x <> project ++ $"/rules/" ++ y.
  Proof. intros. apply under_apart. discriminate. Qed.
  Lemma mr : forall x y, project ++ $"/template/" ++ x <> project ++ $"/rules/" ++ y.
  Proof. intros. apply under_apart. discriminate. Qed.
  Lemma mt : forall x y, project ++ $"/template/" ++ x <> project ++ $"/test/" ++ y.
  Proof. intros. apply under_apart. discriminate. Qed.

  Lemma pre_check_spec : let g := pre_check project f (ra_category a) in
    g (rule_list project a) = Some (text_at f (rule_list project a))
    /\ g (rule_test_list project a) = Some (text_at f (rule_test_list project a))
    /\ g (all_rules_list project) = (match f (rule_list project a) with
                                     | Some _ => f (all_rules_list project)
                                     | None => Some (text_at f (all_rules_list project) ++ category_step a)
                                     end)
    /\ g (all_tests_list project) = (match f (rule_test_list project a) with
                                     | Some _ => f (all_tests_list project)
                                     | None => Some (text_at f (all_tests_list project) ++ directory_step a)
                                     end)
    /\ forall q, q <> rule_list project a -> q <> rule_test_list project a -> q <> all_rules_list project ->
         q <> all_tests_list project -> g q = f q.
  Proof.
    intros g.
    set (f1 := add_path_to_cmake_lists f (rule_list project a) (all_rules_list project) (category_step a)).
    assert (Eg : g = add_path_to_cmake_lists f1 (rule_test_list project a) (all_tests_list project) (directory_step a)).
    { unfold g, pre_check, pre_check_rule, pre_check_test.
      replace (cmake_lists (custom_folder_path project (ra_category a))) with (rule_list project a)
        by (unfold cmake_lists, custom_folder_path, rules_root; rewrite (proj1 (cat_join a Sa (project ++ $"/rules") []));
            unfold rule_list, join; cbn; rewrite <- !app_assoc; reflexivity).
      replace (cmake_lists (custom_test_folder_path project (ra_category a))) with (rule_test_list project a)
        by (unfold cmake_lists, custom_test_folder_path, test_root; rewrite (proj1 (cat_join a Sa (project ++ $"/test") []));
            unfold rule_test_list, join; cbn; rewrite <- !app_assoc; reflexivity).
      replace (cmake_lists (rules_root project)) with (all_rules_list project)
        by (unfold cmake_lists, rules_root, all_rules_list, join; cbn; rewrite <- !app_assoc; reflexivity).
      replace (cmake_lists (test_root project)) with (all_tests_list project)
        by (unfold cmake_lists, test_root, all_tests_list, join; cbn; rewrite <- !app_assoc; reflexivity).
      reflexivity. }
    clearbody g.
    destruct (registered f _ _ (category_step a) (rule_list_root project a)) as (R1 & R2 & R3).
    fold f1 in R1, R2, R3.
    destruct (registered f1 _ _ (directory_step a) (test_list_root project a)) as (Q1 & Q2 & Q3).
    rewrite <- Eg in Q1, Q2, Q3.
    assert (E1 : f1 (rule_test_list project a) = f (rule_test_list project a)) by (apply R3; apply tr).
    assert (E2 : f1 (all_tests_list project) = f (all_tests_list project)) by (apply R3; apply tr).
    unfold text_at in Q1, Q2. rewrite E1 in Q1, Q2. rewrite E2 in Q2. repeat split.
    - rewrite Q3 by apply rt. exact R1.
    - exact Q1.
    - rewrite Q3 by apply rt. exact R2.
    - exact Q2.
    - intros q N1 N2 N3 N4. rewrite Q3, R3 by assumption. reflexivity.
  Qed.

  Let nodes := visit_ast_nodes stmts decls.
  Lemma scaffold_rule_spec : exists f', scaffoldRule project f a = (f', Val tt)
    /\ f' (rule_file project a) = Some (flat_map (replace_wildcard a nodes) (lines_of text))
    /\ f' (rule_test_file project a) = (if ra_test a then Some (flat_map (replace_wildcard a nodes) (lines_of tests))
                                        else f (rule_test_file project a))
    /\ f' (rule_list project a) = Some (text_at f (rule_list project a) ++ rule_step a)
    /\ f' (rule_test_list project a) = Some (text_at f (rule_test_list project a) ++ if ra_test a then test_step a else [])
    /\ f' (all_rules_list project) = (match f (rule_list project a) with
                                      | Some _ => f (all_rules_list project)
                                      | None => Some (text_at f (all_rules_list project) ++ category_step a)
                                      end)
    /\ f' (all_tests_list project) = (match f (rule_test_list project a) with
                                      | Some _ => f (all_tests_list project)
                                      | None => Some (text_at f (all_tests_list project) ++ directory_step a)
                                      end)
    /\ forall q, ~ In q [rule_file project a; rule_test_file project a; rule_list project a; rule_test_list project a;
                         all_rules_list project; all_tests_list project] -> f' q = f q.
  Proof.
    unfold scaffoldRule, scaffold. destruct pre_check_spec as (G1 & G2 & G3 & G4 & G5).
    set (g := pre_check project f (ra_category a)) in *.
    assert (Gt : forall r, g (project ++ $"/template/" ++ r) = f (project ++ $"/template/" ++ r))
      by (intros r; apply G5; [apply mr|apply mt|apply mr|apply mt]).
    destruct (copy_template_spec project a g $"rules" (ra_rule_type a) $"Rule" text stmts decls Sa) as (f1 & E1 & D1 & O1).
    { left. reflexivity. }
    { intros E. apply app_eq_nil in E as [_ E]. discriminate. }
    { pose proof Ty as Ty'. unfold rule_type in Ty'. simpl in Ty'.
      destruct Ty' as [E|[E|[E|[E|[]]]]]; rewrite <- E; simpl; intuition discriminate. }
    { etransitivity; [exact (Gt (ra_rule_type a ++ $"Rule" ++ $".tmpl"))|exact Fr]. }
    { etransitivity; [exact (Gt $"ClangStmtNodes")|exact Fs]. }
    { etransitivity; [exact (Gt $"ClangDeclNodes")|exact Fd]. }
    fold nodes in D1.
    change (custom_folder_path project (ra_category a)) with (join (project ++ $"/" ++ $"rules") (ra_category a)).
    rewrite E1. clear E1.
    change (project ++ $"/" ++ $"rules" ++ $"/" ++ ra_category a ++ $"/" ++ ra_class_name a ++ $"Rule" ++ $".cpp")
      with (rule_file project a) in D1, O1.
    replace (cmake_lists (join (project ++ $"/" ++ $"rules") (ra_category a))) with (rule_list project a)
      by (rewrite (proj1 (cat_join a Sa (project ++ $"/" ++ $"rules") []));
          unfold cmake_lists, rule_list, join; cbn; rewrite <- !app_assoc; reflexivity).
    assert (W : write_cmake_lists f1 (rule_list project a) a = append f1 (rule_list project a) (rule_step a)) by reflexivity.
    rewrite W, append_write. clear W.
    assert (L1 : text_at f1 (rule_list project a) = text_at f (rule_list project a)).
    { unfold text_at. rewrite O1 by (intros E; symmetry in E; revert E; apply rule_file_list). rewrite G1. reflexivity. }
    rewrite L1. set (f2 := write f1 (rule_list project a) (text_at f (rule_list project a) ++ rule_step a)).
    assert (O2 : forall q, q <> rule_list project a -> q <> rule_file project a -> f2 q = g q).
    { intros q N1 N2. unfold f2. rewrite write_other by exact N1. apply O1. exact N2. }
    assert (Df : f2 (rule_file project a) = Some (flat_map (replace_wildcard a nodes) (lines_of text))).
    { unfold f2. rewrite write_other by apply rule_file_list. exact D1. }
    assert (Dl : f2 (rule_list project a) = Some (text_at f (rule_list project a) ++ rule_step a)) by apply write_same.
    assert (Gtf : g (rule_test_file project a) = f (rule_test_file project a))
      by (apply G5; [apply tr|apply test_file_list|apply tr|apply test_file_root]).
    assert (Grf : g (rule_file project a) = f (rule_file project a))
      by (apply G5; [apply rule_file_list|apply rt|apply rule_file_root|apply rt]).
    destruct (ra_test a) eqn:Ra.
    - assert (G2t : forall r, f2 (project ++ $"/template/" ++ r) = f (project ++ $"/template/" ++ r))
        by (intros r; rewrite O2 by apply mr; apply Gt).
      destruct (copy_template_spec project a f2 $"test" [] $"RuleTest" tests stmts decls Sa) as (f3 & E3 & D3 & O3).
      { right. left. reflexivity. }
      { discriminate. }
      { simpl. intuition discriminate. }
      { etransitivity; [exact (G2t ($"RuleTest" ++ $".tmpl"))|exact Ft]. }
      { etransitivity; [exact (G2t $"ClangStmtNodes")|exact Fs]. }
      { etransitivity; [exact (G2t $"ClangDeclNodes")|exact Fd]. }
      fold nodes in D3.
      change (custom_test_folder_path project (ra_category a)) with (join (project ++ $"/" ++ $"test") (ra_category a)).
      rewrite E3. clear E3.
      change (project ++ $"/" ++ $"test" ++ $"/" ++ ra_category a ++ $"/" ++ ra_class_name a ++ $"RuleTest" ++ $".cpp")
        with (rule_test_file project a) in D3, O3.
      replace (cmake_lists (join (project ++ $"/" ++ $"test") (ra_category a))) with (rule_test_list project a)
        by (rewrite (proj1 (cat_join a Sa (project ++ $"/" ++ $"test") []));
            unfold cmake_lists, rule_test_list, join; cbn; rewrite <- !app_assoc; reflexivity).
      assert (W : write_test_cmake_lists f3 (rule_test_list project a) a = append f3 (rule_test_list project a) (test_step a)) by reflexivity.
      rewrite W, append_write. clear W.
      assert (L3 : text_at f3 (rule_test_list project a) = text_at f (rule_test_list project a)).
      { unfold text_at. rewrite O3 by (intros E; symmetry in E; revert E; apply test_file_list).
        rewrite O2 by apply tr. rewrite G2. reflexivity. }
      rewrite L3. set (f4 := write f3 (rule_test_list project a) (text_at f (rule_test_list project a) ++ test_step a)).
      assert (O4 : forall q, q <> rule_test_list project a -> q <> rule_test_file project a -> f4 q = f2 q).
      { intros q N1 N2. unfold f4. rewrite write_other by exact N1. apply O3. exact N2. }
      exists f4. split; [reflexivity|]. split; [|split; [|split; [|split; [|split; [|split]]]]].
      + rewrite O4 by apply rt. exact Df.
      + unfold f4. rewrite write_other by apply test_file_list. exact D3.
      + rewrite O4 by apply rt. exact Dl.
      + apply write_same.
      + rewrite O4 by apply rt. rewrite O2 by (intros E; symmetry in E; revert E; first [apply rule_list_root|apply rule_file_root]). exact G3.
      + rewrite O4 by (intros E; symmetry in E; revert E; first [apply test_list_root|apply test_file_root]). rewrite O2 by apply tr. exact G4.
      + intros q N. simpl in N. rewrite O4, O2, G5 by (intros ->; apply N; tauto). reflexivity.
    - exists f2. split; [reflexivity|]. split; [|split; [|split; [|split; [|split; [|split]]]]].
      + exact Df.
      + rewrite O2 by apply tr. exact Gtf.
      + exact Dl.
      + rewrite O2 by apply tr. rewrite app_nil_r. exact G2.
      + rewrite O2 by (intros E; symmetry in E; revert E; first [apply rule_list_root|apply rule_file_root]). exact G3.
      + rewrite O2 by apply tr. exact G4.
      + intros q N. simpl in N. rewrite O2, G5 by (intros ->; apply N; tauto). reflexivity.
  Qed.
End Scaffold.

(** What an author gets: the filled templates, the lists of things to build extended by the new
    rule and, the first time, by the new category; nothing else changes. *)
Theorem c134_rule : forall project f a lines tests stmts decls,
  sensible a -> Forall node_ok stmts -> Forall node_ok decls -> rule_type (ra_rule_type a) -> template lines -> template tests ->
  f (rule_template project a) = Some (concat (map render lines)) ->
  f (test_template project) = Some (concat (map render tests)) ->
  f (project ++ $"/template/ClangStmtNodes") = Some (node_list stmts) -> f (project ++ $"/template/ClangDeclNodes") = Some (node_list decls) ->
  let filled l := concat (map (fill (rule_value a (visit_blocks stmts decls))) l) in
  exists f', scaffoldRule project f a = (f', Val tt)
    /\ f' (rule_file project a) = Some (filled lines)
    /\ f' (rule_test_file project a) = (if ra_test a then Some (filled tests) else f (rule_test_file project a))
    /\ f' (rule_list project a) = Some (text_at f (rule_list project a) ++ rule_step a)
    /\ f' (rule_test_list project a) = Some (text_at f (rule_test_list project a) ++ if ra_test a then test_step a else [])
    /\ f' (all_rules_list project) = (match f (rule_list project a) with
                                      | Some _ => f (all_rules_list project)
                                      | None => Some (text_at f (all_rules_list project) ++ category_step a)
                                      end)
    /\ f' (all_tests_list project) = (match f (rule_test_list project a) with
                                      | Some _ => f (all_tests_list project)
                                      | None => Some (text_at f (all_tests_list project) ++ directory_step a)
                                      end)
    /\ forall q, ~ In q [rule_file project a; rule_test_file project a; rule_list project a; rule_test_list project a;
                         all_rules_list project; all_tests_list project] -> f' q = f q.
Proof.
  intros. unfold filled. rewrite <- c134_visit_functions by assumption. rewrite <- !template_fill by assumption.
  apply scaffold_rule_spec; assumption.
Qed.

(** Asking for the same rule again is not noticed: the edited rule is gone, and the list builds it
    twice. *)
Theorem c134_again : forall project f a lines tests stmts decls f',
  sensible a -> Forall node_ok stmts -> Forall node_ok decls -> rule_type (ra_rule_type a) -> template lines -> template tests ->
  f (rule_template project a) = Some (concat (map render lines)) ->
  f (test_template project) = Some (concat (map render tests)) ->
  f (project ++ $"/template/ClangStmtNodes") = Some (node_list stmts) -> f (project ++ $"/template/ClangDeclNodes") = Some (node_list decls) ->
  scaffoldRule project f a = (f', Val tt) ->
  forall edited, exists f'', scaffoldRule project (write f' (rule_file project a) edited) a = (f'', Val tt)
    /\ f'' (rule_file project a) = f' (rule_file project a)
    /\ f'' (rule_list project a) = Some (text_at f (rule_list project a) ++ rule_step a ++ rule_step a).
Proof.
  intros project f a lines tests stmts decls f' Sa Os Od Ty T Tt Fr Ft Fs Fd R edited.
  destruct (c134_rule project f a lines tests stmts decls Sa Os Od Ty T Tt Fr Ft Fs Fd) as (g & R' & A & _ & B & _ & _ & _ & O).
  rewrite R in R'. injection R' as <-.
  assert (K : forall r, write f' (rule_file project a) edited (project ++ $"/template/" ++ r) = f (project ++ $"/template/" ++ r)).
  { intros r. rewrite write_other by apply mr. apply O. simpl.
    intros [E|[E|[E|[E|[E|[E|[]]]]]]]; symmetry in E; revert E; first [apply mr|apply mt]. }
  destruct (c134_rule project (write f' (rule_file project a) edited) a lines tests stmts decls Sa Os Od Ty T Tt)
    as (f'' & R'' & A' & _ & B' & _).
  { etransitivity; [exact (K (ra_rule_type a ++ $"Rule.tmpl"))|exact Fr]. }
  { etransitivity; [exact (K $"RuleTest.tmpl")|exact Ft]. }
  { etransitivity; [exact (K $"ClangStmtNodes")|exact Fs]. }
  { etransitivity; [exact (K $"ClangDeclNodes")|exact Fd]. }
  exists f''. split; [exact R''|]. split; [rewrite A, A'; reflexivity|].
  rewrite B'. unfold text_at at 1. rewrite write_other by (intros E; symmetry in E; revert E; apply rule_file_list).
  rewrite B, <- app_assoc. reflexivity.
Qed.

(** ** Reporters *)
Lemma rep_attributes : forall a, sensible_reporter a ->
  Forall (fun kv => no_braces (fst kv) /\ no_braces (snd kv)) [($"REPORTER_CLASS_NAME", pa_class_name a); ($"REPORTER_NAME", reporter_name a)].
Proof.
  intros a [P N].
  assert (Sr : sensible {| ra_class_name := pa_class_name a; ra_rule_type := []; ra_category := $"x"; ra_name := pa_name a;
                           ra_priority := 3%Z; ra_test := false |}).
  { repeat split; try discriminate; auto; try lia.
    - simpl. intuition discriminate.
    - simpl. intros c [<-|[]] [E|E]; discriminate. }
  pose proof (class_no_braces _ Sr) as C. pose proof (name_no_braces _ Sr) as M. simpl in C, M.
  repeat constructor; cbn [fst snd]; auto; intros c I [E|E]; subst c; simpl in I; intuition discriminate.
Qed.
Lemma rep_fill : forall a lines, sensible_reporter a -> template lines ->
  flat_map (rep_replace_wildcard a) (lines_of (concat (map render lines))) = concat (map (fill (reporter_value a)) lines).
Proof.
  intros a lines Sa T. rewrite lines_template by (eapply Forall_impl; [|exact T]; intros ? [? ?]; auto).
  induction T as [|l lines [_ W] T IH]; [reflexivity|]. cbn [map flat_map concat]. rewrite IH. f_equal.
  destruct (replaces_render _ l (rep_attributes a Sa) W) as [E _]. cbn [fold_left fst snd] in E.
  unfold rep_replace_wildcard. rewrite E, puts_assoc. reflexivity.
Qed.

Lemma rep_paths : forall project a, sensible_reporter a ->
  class_path project a = reporter_file project a /\ test_path project a = reporter_test_file project a
  /\ join (reporters_root project) $"CMakeLists.txt" = reporters_list project
  /\ join (reporters_test project) $"CMakeLists.txt" = all_tests_list project.
Proof.
  intros project a [(x & r & E & U & _) _].
  assert (X : ascii_eqb x "/"%char = false).
  { destruct (ascii_eqb x "/"%char) eqn:X; auto. apply ascii_eqb_eq in X. subst x. discriminate. }
  unfold class_path, test_path, reporter_file, reporter_test_file, reporters_list, all_tests_list, reporters_root, reporters_test, join.
  rewrite E. cbn [app]. rewrite X. cbn. rewrite <- !app_assoc. auto.
Qed.
Lemma rep_apart : forall project a,
  reporter_file project a <> reporters_list project /\ reporter_test_file project a <> all_tests_list project.
Proof.
  intros project a. unfold reporter_file, reporters_list, reporter_test_file, all_tests_list. split; intros E.
  - apply (cpp_not_txt (project ++ $"/reporters/" ++ pa_class_name a ++ $"Reporter") (project ++ $"/reporters/CMakeLists")).
    rewrite <- !app_assoc. exact E.
  - apply (cpp_not_txt (project ++ $"/test/" ++ pa_class_name a ++ $"ReporterTest") (project ++ $"/test/CMakeLists")).
    rewrite <- !app_assoc. exact E.
Qed.

(** An existing reporter or test is not touched, and named in what is printed. *)
Theorem c134_reporter_refused : forall project f a,
  sensible_reporter a ->
  let there p := f p <> None in
  let complaint file := $"Error: " ++ pa_class_name a ++ file ++ $" already exists." ++ [NL] in
  let old_reporter := there (reporter_file project a) in
  let old_test := pa_tests a = true /\ there (reporter_test_file project a) in
  (old_reporter -> ~ old_test -> scaffoldReporter project f a = ([complaint $"Reporter.cpp"], (f, Val tt)))
  /\ (~ old_reporter -> old_test -> scaffoldReporter project f a = ([complaint $"ReporterTest.cpp"], (f, Val tt)))
  /\ (old_reporter -> old_test ->
      scaffoldReporter project f a = ([complaint $"Reporter.cpp"; complaint $"ReporterTest.cpp"], (f, Val tt))).
Proof.
  intros project f a Sa there complaint old_reporter old_test.
  unfold scaffoldReporter, pre_validate, isfile. destruct (rep_paths project a Sa) as (-> & -> & _ & _).
  subst there complaint old_reporter old_test. cbv beta.
  destruct (f (reporter_file project a)) as [s|]; destruct (pa_tests a); destruct (f (reporter_test_file project a)) as [t|];
    cbn [andb orb negb app]; (split; [|split]); intros A B; try reflexivity; exfalso;
    repeat match goal with H : _ /\ _ |- _ => destruct H end; try congruence; try (apply A; congruence);
    try (apply B; split; congruence).
Qed.
(** Otherwise the filled templates are written and the lists extended. *)
Theorem c134_reporter : forall project f a lines tests,
  sensible_reporter a -> template lines -> template tests ->
  f (project ++ $"/template/Reporter.tmpl") = Some (concat (map render lines)) ->
  f (project ++ $"/template/ReporterTest.tmpl") = Some (concat (map render tests)) ->
  f (reporter_file project a) = None -> (pa_tests a = true -> f (reporter_test_file project a) = None) ->
  let filled l := concat (map (fill (reporter_value a)) l) in
  exists f', scaffoldReporter project f a = ([], (f', Val tt))
    /\ f' (reporter_file project a) = Some (filled lines)
    /\ f' (reporters_list project) = Some (text_at f (reporters_list project) ++ reporter_step a)
    /\ f' (reporter_test_file project a) = (if pa_tests a then Some (filled tests) else f (reporter_test_file project a))
    /\ f' (all_tests_list project) = (if pa_tests a then Some (text_at f (all_tests_list project) ++ reporter_test_step a)
                                      else f (all_tests_list project))
    /\ forall q, ~ In q [reporter_file project a; reporters_list project; reporter_test_file project a; all_tests_list project] -> f' q = f q.
Proof.
  intros project f a lines tests Sa T Tt Fr Ft N Nt filled.
  assert (RT : forall x y, project ++ $"/reporters/" ++ x <> project ++ $"/test/" ++ y) by (intros; apply under_apart; discriminate).
  assert (TR : forall x y, project ++ $"/test/" ++ x <> project ++ $"/reporters/" ++ y) by (intros; apply under_apart; discriminate).
  assert (MR : forall x y, project ++ $"/template/" ++ x <> project ++ $"/reporters/" ++ y) by (intros; apply under_apart; discriminate).
  assert (MT : forall x y, project ++ $"/template/" ++ x <> project ++ $"/test/" ++ y) by (intros; apply under_apart; discriminate).
  unfold scaffoldReporter, pre_validate. destruct (rep_paths project a Sa) as (-> & -> & -> & ->).
  destruct (rep_apart project a) as [Ap1 Ap2].
  assert (K1 : isfile f (reporter_file project a) = false) by (unfold isfile; rewrite N; reflexivity).
  assert (K : pa_tests a && isfile f (reporter_test_file project a) = false).
  { destruct (pa_tests a); auto. unfold isfile. rewrite Nt; auto. }
  rewrite K1, K. cbn [orb negb app]. unfold rep_copy_template.
  rewrite write_other by apply (MR $"Reporter.tmpl"). rewrite Fr, rep_fill by auto. fold (filled lines).
  unfold append_cmake_lists. rewrite append_write.
  set (f1 := write (write f (reporter_file project a) []) (reporter_file project a) (filled lines)).
  assert (O1 : forall q, q <> reporter_file project a -> f1 q = f q) by (intros q Q; unfold f1; rewrite !write_other by auto; reflexivity).
  assert (D1 : f1 (reporter_file project a) = Some (filled lines)) by apply write_same.
  assert (L1 : text_at f1 (reporters_list project) = text_at f (reporters_list project)) by (unfold text_at; rewrite O1 by auto; reflexivity).
  rewrite L1.
  match goal with |- context [write f1 _ ?t] => set (f2 := write f1 (reporters_list project) t) end.
  assert (D2 : f2 (reporters_list project) = Some (text_at f (reporters_list project) ++ reporter_step a)).
  { unfold f2. rewrite write_same. unfold reporter_step. rewrite <- !app_assoc. reflexivity. }
  assert (O2 : forall q, q <> reporter_file project a -> q <> reporters_list project -> f2 q = f q).
  { intros q Q1 Q2. unfold f2. rewrite write_other by auto. auto. }
  assert (D1' : f2 (reporter_file project a) = Some (filled lines)).
  { unfold f2. rewrite write_other by auto. exact D1. }
  destruct (pa_tests a) eqn:Pt.
  - assert (Mt : write f2 (reporter_test_file project a) [] (project ++ $"/template/ReporterTest.tmpl") = Some (concat (map render tests))).
    { rewrite write_other by apply (MT $"ReporterTest.tmpl"). rewrite O2 by apply (MR $"ReporterTest.tmpl"). exact Ft. }
    rewrite Mt, rep_fill by auto. fold (filled tests). rewrite append_write.
    set (f3 := write (write f2 (reporter_test_file project a) []) (reporter_test_file project a) (filled tests)).
    assert (O3 : forall q, q <> reporter_test_file project a -> f3 q = f2 q) by (intros q Q; unfold f3; rewrite !write_other by auto; reflexivity).
    assert (L3 : text_at f3 (all_tests_list project) = text_at f (all_tests_list project)).
    { unfold text_at. rewrite O3 by auto. rewrite O2 by apply TR. reflexivity. }
    rewrite L3. eexists. split; [reflexivity|]. split; [|split; [|split; [|split]]].
    + rewrite write_other by apply RT. rewrite O3 by apply RT. exact D1'.
    + rewrite write_other by apply RT. rewrite O3 by apply RT. exact D2.
    + rewrite write_other by auto. apply write_same.
    + rewrite write_same. unfold reporter_test_step. rewrite <- !app_assoc. reflexivity.
    + intros q Q. simpl in Q. rewrite write_other, O3, O2 by (intros ->; apply Q; tauto). reflexivity.
  - exists f2. split; [reflexivity|]. split; [|split; [|split; [|split]]]; auto.
    + apply O2; apply TR.
    + apply O2; apply TR.
    + intros q Q. simpl in Q. apply O2; intros ->; apply Q; tauto.
Qed.

(** The hypotheses are met, by the first lines of a template. *)
Definition small_template : list (list segment) :=
  [[Text $"class "; Hole $"RULE_CLASS_NAME"; Text ($"Rule" ++ [NL])]; [Text ($"{" ++ [NL])];
   [Text $"    return """; Hole $"RULE_NAME"; Text ($"""; }" ++ [NL])]; [Hole $"VISIT_AST_NODE_BLOCK"; Text [NL]]].
Definition small_args : ruleargs :=
  {| ra_class_name := $"GotoStatement"; ra_rule_type := $"Generic"; ra_category := $"basic"; ra_name := [];
     ra_priority := 3%Z; ra_test := true |}.
Definition small_nodes : list node_line := [Remark $"// Statements"; Def [] $"IfStmt" $" Node<Stmt>;"].
Definition small_project : files := fun p =>
  if str_eqb p $"p/template/GenericRule.tmpl" then Some (concat (map render small_template))
  else if str_eqb p $"p/template/RuleTest.tmpl" then Some []
  else if str_eqb p $"p/template/ClangStmtNodes" then Some (node_list small_nodes)
  else if str_eqb p $"p/template/ClangDeclNodes" then Some (node_list [])
  else None.
Lemma plain_check : forall t, (fix ok s := match s with
                                           | [] => true
                                           | c :: s' => (negb (ascii_eqb c "{"%char) ||
                                                         match s' with d :: _ => negb (ascii_eqb d "{"%char) | [] => false end) && ok s'
                                           end) t = true -> plain_text t.
Proof.
  intros t H a. revert t H. induction a as [|c a IH]; intros t H b ->.
  - cbn [app] in H. apply andb_prop in H as [H _]. destruct b as [|d b]; [discriminate|]. exists d, b. split; auto.
    cbn in H. intros ->. discriminate.
  - cbn [app] in H. apply andb_prop in H as [_ H]. apply (IH _ H b eq_refl).
Qed.
Example c134_case : sensible small_args /\ rule_type (ra_rule_type small_args) /\ template small_template /\ template []
  /\ Forall node_ok small_nodes
  /\ small_project (rule_template $"p" small_args) = Some (concat (map render small_template))
  /\ small_project (test_template $"p") = Some (concat (map render []))
  /\ exists f', scaffoldRule $"p" small_project small_args = (f', Val tt)
     /\ f' $"p/rules/basic/GotoStatementRule.cpp"
        = Some ($"class GotoStatementRule" ++ [NL] ++ $"{" ++ [NL] ++ $"    return ""goto statement""; }" ++ [NL] ++ visit_block $"IfStmt" ++ [NL])
     /\ f' $"p/test/CMakeLists.txt" = Some ([NL] ++ $"ADD_SUBDIRECTORY(basic)" ++ [NL]).
Proof.
  split; [|split; [|split; [|split; [|split; [|split; [|split]]]]]].
  - repeat split; try discriminate; auto; try lia.
    + apply c133_case.
    + simpl. intuition discriminate.
    + intros c I [->| ->]; simpl in I; intuition discriminate.
    + intros c [].
  - left. reflexivity.
  - repeat constructor.
    + exists $"class {{RULE_CLASS_NAME}}Rule". split; [reflexivity|]. simpl. intuition discriminate.
    + apply plain_check. reflexivity.
    + intros c I [->| ->]; simpl in I; intuition discriminate.
    + apply plain_check. reflexivity.
    + exists $"{". split; [reflexivity|]. simpl. intuition discriminate.
    + apply plain_check. reflexivity.
    + exists $"    return ""{{RULE_NAME}}""; }". split; [reflexivity|]. simpl. intuition discriminate.
    + apply plain_check. reflexivity.
    + intros c I [->| ->]; simpl in I; intuition discriminate.
    + apply plain_check. reflexivity.
    + exists $"{{VISIT_AST_NODE_BLOCK}}". split; [reflexivity|]. simpl. intuition discriminate.
    + intros c I [->| ->]; simpl in I; intuition discriminate.
    + apply plain_check. reflexivity.
  - constructor.
  - repeat constructor.
    + simpl. intuition discriminate.
    + intros b n z E. assert (I : In "f"%char ($"// Statements" ++ [NL])) by (rewrite E; apply in_or_app; right; do 2 right; left; reflexivity).
      simpl in I. intuition discriminate.
    + intros c [].
    + discriminate.
    + simpl. intuition discriminate.
    + simpl. intuition discriminate.
    + simpl. intuition discriminate.
  - reflexivity.
  - reflexivity.
  - eexists. split; [reflexivity|]. split; vm_compute; reflexivity.
Qed.

Print Assumptions c133_identifier_is_the_class.
Print Assumptions c133_names_differ.
Print Assumptions c133_suppressed_by_its_name.
Print Assumptions c133_lower_case.
Print Assumptions c133_first_letter_refuted.
Print Assumptions c133_digit_refuted.
Print Assumptions c134_visit_functions.
Print Assumptions c134_every_node_refuted.
Print Assumptions c134_rule.
Print Assumptions c134_again.
Print Assumptions c134_reporter_refused.
Print Assumptions c134_reporter.
