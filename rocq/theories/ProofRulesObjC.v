(** * Lemmas about the design, cocoa and migration rules *)
From Coq Require Import Permutation.
From Verif Require Import Base BaseFacts ModelConfig ModelSource ModelAST ModelRules ModelRulesBasic ModelRulesVars ModelRulesObjC SpecFilter ProofFilter
  SpecSource ProofSource SpecAST ProofAST SpecRules ProofRules SpecRulesVars ProofRulesVars SpecRulesObjC.
Local Arguments lit : simpl never.

(** ** Design *)
Lemma defaulted_iff p : hasDefaultArg p = true <-> defaulted p.
Proof.
  unfold hasDefaultArg, defaulted. destruct (n_shape p); split; try discriminate; try (intros (v & j & H & _); discriminate).
  - eauto.
  - intros (v & j & H & K). now injection H as -> ->.
Qed.
Lemma default_node n : virtual_with_default n /\ DefaultArguments_visit n = [plainReport n]
  \/ ~ virtual_with_default n /\ DefaultArguments_visit n = [].
Proof.
  unfold DefaultArguments_visit. destruct (n_shape n) eqn:S;
    try (right; split; [intros (m & ps & p & (f & b & H & _) & _); congruence|reflexivity]).
  destruct info as [fn [m|] fd fl].
  - destruct (cm_virtual m) eqn:V; cbn [andb].
    + destruct (existsb hasDefaultArg params) eqn:E.
      * apply existsb_exists in E as (p & Hp & Hd). left. split; [|reflexivity]. exists m, params, p.
        split; [do 2 eexists; split; [exact S|reflexivity]|]. rewrite <- defaulted_iff. auto.
      * right. split; [|reflexivity]. intros (m' & ps & p & (f & b & H & _) & _ & Hp & Hd). rewrite S in H. injection H as <- <- <-.
        apply defaulted_iff in Hd. assert (X : existsb hasDefaultArg params = true) by (apply existsb_exists; eauto). congruence.
    + right. split; [|reflexivity]. intros (m' & ps & p & (f & b & H & K) & V' & _). rewrite S in H. injection H as <- <- <-.
      cbn in K. congruence.
  - right. split; [|reflexivity]. intros (m' & ps & p & (f & b & H & K) & _). rewrite S in H. injection H as <- <- <-. discriminate.
Qed.
Lemma static_node n : private_static n /\ PrivateStatic_visit n = [plainReport n]
  \/ ~ private_static n /\ PrivateStatic_visit n = [].
Proof.
  unfold PrivateStatic_visit. destruct (n_shape n) eqn:S;
    try (right; split; [intros [(v & i & H & _)|(m & ps & (f & b & H & _) & _)]; congruence|reflexivity]).
  - destruct (v_private info && v_staticMember info) eqn:E; [left|right]; (split; [|reflexivity]).
    + apply andb_prop in E as []. left. eauto 6.
    + intros [(v & i & H & A & B)|(m & ps & (f & b & H & _) & _)]; [|congruence]. rewrite S in H. injection H as <- <-.
      rewrite A, B in E. discriminate.
  - destruct info as [fn [m|] fd fl].
    + destruct (cm_private m && cm_static m) eqn:E; [left|right]; (split; [|reflexivity]).
      * apply andb_prop in E as []. right. exists m, params. split; [do 2 eexists; split; [exact S|reflexivity]|auto].
      * intros [(v & i & H & _)|(m' & ps & (f & b & H & K) & A & B)]; [congruence|]. rewrite S in H. injection H as <- <- <-.
        cbn in K. injection K as <-. rewrite A, B in E. discriminate.
    + right. split; [|reflexivity]. intros [(v & i & H & _)|(m' & ps & (f & b & H & K) & A & B)]; [congruence|].
      rewrite S in H. injection H as <- <- <-. discriminate.
Qed.

(** ** Feature envy *)
Definition addressee (n : node) : option str :=
  match n_shape n with
  | ObjCMessageExpr i _ _ =>
      if ms_implicit i then None
      else match ms_receiver i with RInstance => ms_interface i | RClass c => Some c | _ => None end
  | ObjCIvarRefExpr _ c _ => c
  | ObjCPropertyRefExpr w s g _ => if w then s else g
  | _ => None
  end.
Lemma addresses_iff n c : addresses n c <-> addressee n = Some c.
Proof.
  unfold addressee. split.
  - destruct 1 as [n i r a c S I R C|n i r a c S I R|n x b c S|n g b c S|n s b c S]; rewrite S; try rewrite I, R; auto.
  - destruct (n_shape n) eqn:S; try discriminate.
    + destruct (ms_implicit info) eqn:I; [discriminate|]. destruct (ms_receiver info) eqn:R; try discriminate; intros H.
      * eapply ad_instance; eauto.
      * injection H as ->. eapply ad_class; eauto.
    + intros ->. eapply ad_ivar; eauto.
    + destruct setter; intros ->; [eapply ad_write|eapply ad_read]; eauto.
Qed.
Lemma analyzer_visit n m : MessageAnalyzer_visit n m = match addressee n with Some c => countClassName c m | None => m end.
Proof.
  unfold MessageAnalyzer_visit, addressee, countInterface. destruct (n_shape n); auto.
  destruct (ms_implicit info); auto. cbn [negb]. destruct (ms_receiver info); auto.
Qed.
Definition addresseeIs (c : str) (n : node) : bool := match addressee n with Some x => str_eqb x c | None => false end.
Lemma addresseeIs_iff c n : addresses n c <-> addresseeIs c n = true.
Proof.
  rewrite addresses_iff. unfold addresseeIs. destruct (addressee n) as [x|]; split; try discriminate.
  - intros [= ->]. apply str_eqb_refl.
  - intros H. apply str_eqb_eq in H. now subst.
Qed.
Lemma times_iff n c k : times n c k <-> k = length (filter (addresseeIs c) (nodes n)).
Proof.
  unfold times. split.
  - intros (sel & S & <-). apply (sublist_filter _ (addresseeIs c)) in S; [now subst|]. intros. apply addresseeIs_iff.
  - intros ->. eexists. split; [|reflexivity]. apply (sublist_filter _ (addresseeIs c)); auto. intros. apply addresseeIs_iff.
Qed.
Lemma self_count c x m : selfMessages c (countClassName x m) = (selfMessages c m + (if str_eqb x c then 1 else 0))%Z.
Proof.
  induction m as [|[k v] m IH]; cbn.
  - destruct (str_eqb x c); reflexivity.
  - destruct (str_eqb k x) eqn:E.
    + apply str_eqb_eq in E. subst. cbn. destruct (str_eqb x c); lia.
    + cbn. destruct (str_eqb k c) eqn:F; [|exact IH]. apply str_eqb_eq in F. subst.
      destruct (str_eqb x c) eqn:G; [|lia]. apply str_eqb_eq in G. subst. now rewrite str_eqb_refl in E.
Qed.
Lemma keys_count x m : map fst (countClassName x m) = map fst m \/ map fst (countClassName x m) = map fst m ++ [x] /\ ~ In x (map fst m).
Proof.
  induction m as [|[k v] m IH]; cbn.
  - right. auto.
  - destruct (str_eqb k x) eqn:E; cbn; [left; reflexivity|]. destruct IH as [->|[-> N]]; [left; reflexivity|right].
    split; [reflexivity|]. intros [->|H]; [now rewrite str_eqb_refl in E|auto].
Qed.
Lemma nodup_count x m : NoDup (map fst m) -> NoDup (map fst (countClassName x m)).
Proof.
  intros H. destruct (keys_count x m) as [->|[-> N]]; auto.
  apply (Permutation_NoDup (Permutation_cons_append _ _)). now constructor.
Qed.
Lemma counted l : forall m, NoDup (map fst m) ->
  let m' := fold_left (fun s n => MessageAnalyzer_visit n s) l m in
  NoDup (map fst m') /\ forall c, selfMessages c m' = (selfMessages c m + Z.of_nat (length (filter (addresseeIs c) l)))%Z.
Proof.
  induction l as [|n l IH]; intros m D; cbn.
  - split; auto. intros. lia.
  - rewrite analyzer_visit. unfold addresseeIs at 1. destruct (addressee n) as [x|].
    + destruct (IH _ (nodup_count x m D)) as [A B]. split; auto. intros c. rewrite B, self_count.
      destruct (str_eqb x c); cbn [length]; lia.
    + apply IH. exact D.
Qed.
Lemma self_in c v m : NoDup (map fst m) -> In (c, v) m -> selfMessages c m = v.
Proof.
  induction m as [|[k w] m IH]; cbn; [intros _ []|]. intros D [H|H].
  - injection H as -> ->. now rewrite str_eqb_refl.
  - inversion D as [|? ? N D']; subst. destruct (str_eqb k c) eqn:E; auto. apply str_eqb_eq in E. subst.
    exfalso. apply N. apply in_map_iff. exists (c, v). auto.
Qed.
Lemma self_pos c m : (0 < selfMessages c m)%Z -> In (c, selfMessages c m) m.
Proof.
  induction m as [|[k w] m IH]; cbn; [lia|]. destruct (str_eqb k c) eqn:E; intros H; [|right; auto].
  apply str_eqb_eq in E. subst. left. reflexivity.
Qed.
Lemma nodup_filter {A B} (f : A -> B) p l : NoDup (map f l) -> NoDup (map f (filter p l)).
Proof.
  induction l as [|x l IH]; cbn; auto. intros D. inversion D as [|? ? N D']; subst. destruct (p x); cbn; auto.
  constructor; auto. intros H. apply N. apply in_map_iff in H as (y & <- & Hy). apply filter_In in Hy as [Hy _].
  apply in_map_iff. eauto.
Qed.
Definition envyMap (n : node) : list (str * Z) := snd (traverse (fun x s => (true, MessageAnalyzer_visit x s)) n []).
Lemma envyMap_spec n : NoDup (map fst (envyMap n)) /\ forall c, selfMessages c (envyMap n) = Z.of_nat (length (filter (addresseeIs c) (nodes n))).
Proof.
  unfold envyMap. rewrite traverse_nodes, visit_all_true by auto. cbn [snd].
  destruct (counted (nodes n) [] (NoDup_nil _)) as [A B]. split; auto.
Qed.
Lemma envied_in order n own c : Permutation (order (envyMap n)) (envyMap n) ->
  (In c (enviedClasses order (selfMessages own (envyMap n)) (envyMap n)) <-> exists k k0, times n c k /\ times n own k0 /\ k0 < k).
Proof.
  intros P. destruct (envyMap_spec n) as [D E]. unfold enviedClasses. rewrite in_map_iff. split.
  - intros ([c' v] & <- & H). apply filter_In in H as [H G]. cbn [fst snd] in *.
    apply (Permutation_in _ P) in H. apply self_in in H; [|exact D].
    exists (length (filter (addresseeIs c') (nodes n))), (length (filter (addresseeIs own) (nodes n))).
    rewrite !times_iff. split; [reflexivity|]. split; [reflexivity|]. rewrite Z.gtb_lt in G. rewrite <- H, !E in G. lia.
  - intros (k & k0 & K & K0 & L). apply times_iff in K, K0. subst.
    exists (c, selfMessages c (envyMap n)). split; [reflexivity|]. apply filter_In. cbn [snd]. rewrite Z.gtb_lt, !E. split; [|lia].
    rewrite <- E. apply (Permutation_in _ (Permutation_sym P)), self_pos. rewrite E. lia.
Qed.
Lemma envy_node order n : (forall m, Permutation (order m) m) -> envy_reports n (FeatureEnvy_visit order n).
Proof.
  intros P. unfold FeatureEnvy_visit, envy_reports.
  assert (None_case : (forall s own, ~ method_of_class n s own) -> exists cs, NoDup cs
    /\ (forall c, In c cs <-> exists s, envies n s c)
    /\ Forall2 (fun c r => exists s, envies n s c /\ r = Report n ($"Method " ++ s ++ $" messages " ++ c ++ $" more than self.")) cs []).
  { intros N. exists []. split; [constructor|]. split; [|constructor]. intros c. split; [intros []|].
    intros (s & own & k & k0 & H & _). destruct (N _ _ H). }
  destruct (n_shape n) eqn:S; try (apply None_case; intros s own (mi & ps & b & H & _); congruence).
  unfold analyzeObjC. destruct (om_class info) as [own|] eqn:O.
  2:{ cbn [map]. apply None_case. intros s own (mi & ps & b & H & _ & K). rewrite S in H. injection H as <- <- <-. congruence. }
  change (snd (traverse (fun x s => (true, MessageAnalyzer_visit x s)) n [])) with (envyMap n).
  set (cs := enviedClasses order (selfMessages own (envyMap n)) (envyMap n)).
  assert (I : forall c, In c cs <-> envies n (om_selector info) c).
  { intros c. unfold cs. rewrite envied_in by apply P. split.
    - intros (k & k0 & A & B & C). exists own, k, k0. repeat split; auto. do 3 eexists. eauto.
    - intros (own' & k & k0 & (mi & ps & b & H & _ & Ho) & A & B & C). rewrite S in H. injection H as <- <- <-. rewrite O in Ho. injection Ho as <-. eauto. }
  exists cs. split; [|split].
  - unfold cs, enviedClasses. apply nodup_filter. eapply Permutation_NoDup; [|apply (proj1 (envyMap_spec n))].
    apply Permutation_map, Permutation_sym, P.
  - intros c. rewrite I. split; [eauto|]. intros (s & H).
    assert (s = om_selector info) as ->; [|exact H]. destruct H as (own' & k & k0 & (mi & ps & b & H & <- & _) & _). rewrite S in H. now injection H as <- <- <-.
  - assert (G : forall l, (forall c, In c l -> In c cs) ->
      Forall2 (fun c r => exists s, envies n s c /\ r = Report n ($"Method " ++ s ++ $" messages " ++ c ++ $" more than self.")) l
        (map (fun c => Report n ($"Method " ++ om_selector info ++ $" messages " ++ c ++ $" more than self.")) l)).
    { induction l as [|c l IH]; intros H; cbn [map]; constructor.
      - exists (om_selector info). split; [|reflexivity]. apply I, H. left. reflexivity.
      - apply IH. intros. apply H. right. auto. }
    apply G. auto.
Qed.

(** ** Annotations that enforce *)
Lemma loop_app a b name comment : annots_loop (a ++ b) name comment =
  match annots_loop a name comment with (true, c) => (true, c) | (false, c) => annots_loop b name c end.
Proof.
  revert comment. induction a as [|x a IH]; intros comment; cbn; auto.
  destruct (attributeHasAnnotation x name comment) as [[|] c]; auto.
Qed.
Lemma base_olist l action r comment : baseAction l action r comment = annots_loop (olist l) ($"oclint:" ++ action ++ $"[" ++ r ++ $"]") comment.
Proof. destruct l; reflexivity. Qed.
Lemma action_searched : forall d action r comment,
  declHasActionAttribute d action r comment = annots_loop (searched d) ($"oclint:" ++ action ++ $"[" ++ r ++ $"]") comment.
Proof.
  fix IH 1.
  assert (IHc : forall cats action r comment, categoriesHave cats action r comment
    = annots_loop (searched_in cats) ($"oclint:" ++ action ++ $"[" ++ r ++ $"]") comment).
  { fix IHc 1. intros [|[d|] rest] action r comment; cbn [categoriesHave searched_in].
    - reflexivity.
    - rewrite loop_app, <- IH. destruct (declHasActionAttribute d action r comment) as [[|] c]; auto.
    - apply IHc. }
  intros [annots [[acc prop ctx]|]] action r comment; cbn [declHasActionAttribute searched]; [|reflexivity].
  rewrite loop_app, <- (base_olist (Some annots)). destruct (baseAction (Some annots) action r comment) as [[|] c1]; auto.
  rewrite loop_app. destruct acc.
  - rewrite <- base_olist. destruct (baseAction prop action r c1) as [[|] c2]; auto.
    destruct ctx as [|l|[cats|]]; auto. apply base_olist.
  - cbn [annots_loop]. destruct ctx as [|l|[cats|]]; auto. apply base_olist.
Qed.
Lemma bracket_dec rest : (exists b, bracket_comment rest b) \/ forall b, ~ bracket_comment rest b.
Proof.
  destruct (find_char "["%char rest) as [k|] eqn:F.
  - destruct (BaseFacts.find_char_some _ _ _ F) as (a & b & -> & _ & Ha). destruct b as [|y b _] using rev_ind.
    + right. intros b (a' & Ha' & E). apply (f_equal (fun l => last l " "%char)) in E. rewrite last_last in E.
      rewrite !app_assoc in E. change ($"]") with ["]"%char] in E. rewrite last_last in E. discriminate.
    + destruct (ascii_eqb y "]"%char) eqn:Y.
      * apply ascii_eqb_eq in Y. subst. left. exists b, a. auto.
      * right. intros b' (a' & Ha' & E). apply (f_equal (fun l => last l " "%char)) in E.
        rewrite app_comm_cons, app_assoc, last_last in E.
        rewrite !app_assoc in E. change ($"]") with ["]"%char] in E. rewrite last_last in E. subst. now rewrite ascii_eqb_refl in Y.
  - right. intros b (a & Ha & ->). eapply find_bracket_none; [exact F|]. unfold has_bracket. apply in_or_app. right. left. reflexivity.
Qed.
Lemma enforce_name r rest : $"oclint:enforce[" ++ r ++ $"]" ++ rest = ($"oclint:" ++ $"enforce" ++ $"[" ++ r ++ $"]") ++ rest.
Proof. rewrite <- !app_assoc. reflexivity. Qed.
Lemma enforce_loop r l comment :
  (exists a rest, first_such (enforcing r) l a /\ a = $"oclint:enforce[" ++ r ++ $"]" ++ rest
     /\ ((exists b, bracket_comment rest b /\ annots_loop l ($"oclint:" ++ $"enforce" ++ $"[" ++ r ++ $"]") comment = (true, b))
         \/ ((forall b, ~ bracket_comment rest b) /\ annots_loop l ($"oclint:" ++ $"enforce" ++ $"[" ++ r ++ $"]") comment = (true, comment))))
  \/ ((forall a, In a l -> ~ enforcing r a) /\ annots_loop l ($"oclint:" ++ $"enforce" ++ $"[" ++ r ++ $"]") comment = (false, comment)).
Proof.
  set (name := $"oclint:" ++ $"enforce" ++ $"[" ++ r ++ $"]").
  assert (B : has_bracket name). { unfold has_bracket, name. rewrite !in_app_iff. do 2 right. left. left. reflexivity. }
  induction l as [|a l IH].
  - right. split; [intros a []|reflexivity].
  - cbn [annots_loop]. destruct (prefixb name a) eqn:P.
    + left. apply prefixb_spec in P as [rest ->]. exists (name ++ rest), rest. split.
      * exists [], l. split; [reflexivity|]. split; [|intros y []]. exists rest. now rewrite enforce_name.
      * split; [now rewrite enforce_name|]. destruct (bracket_dec rest) as [[b Hb]|N].
        -- left. exists b. split; auto. now rewrite (aha_comment_body name rest b comment B Hb).
        -- right. split; auto. now rewrite (aha_comment_none name rest comment B N).
    + pose proof (aha_bracket a name comment B) as F. rewrite P in F.
      assert (G : attributeHasAnnotation a name comment = (false, comment)).
      { unfold attributeHasAnnotation in *. destruct (find_char "["%char name) eqn:E; [|apply find_bracket_none in E; contradiction].
        rewrite P. cbn [negb]. now rewrite orb_true_r. }
      rewrite G. assert (N : ~ enforcing r a).
      { intros (rest & ->). rewrite enforce_name in P. fold name in P. assert (X : prefixb name (name ++ rest) = true) by (apply prefixb_spec; eauto). congruence. }
      destruct IH as [(x & rest & (u & v & -> & Hx & Hu) & E & K)|[Hn K]].
      * left. exists x, rest. split; [|auto]. exists (a :: u), v. split; [reflexivity|]. split; auto.
        intros y [<-|Hy]; auto.
      * right. split; auto. intros y [<-|Hy]; auto.
Qed.
Lemma enforce_iff d r comment : fst (declHasEnforceAttribute (Some d) r comment) = true <-> marked d r.
Proof.
  unfold declHasEnforceAttribute, marked. rewrite action_searched.
  destruct (enforce_loop r (searched d) comment) as [(a & rest & (u & v & E & Ha & _) & _ & K)|[N K]].
  - destruct K as [(b & _ & K)|[_ K]]; rewrite K; cbn; (split; [intros _|auto]); exists a; (split; auto); rewrite E; apply in_or_app; right; left; reflexivity.
  - rewrite K. cbn. split; [discriminate|]. intros (a & Ha & H). destruct (N a Ha H).
Qed.
Lemma bracket_fun rest b b' : bracket_comment rest b -> bracket_comment rest b' -> b = b'.
Proof.
  intros (a & Ha & ->) (a' & Ha' & E).
  change ($"[" ++ b ++ $"]") with ("["%char :: b ++ $"]") in E. change ($"[" ++ b' ++ $"]") with ("["%char :: b' ++ $"]") in E.
  assert (X : a = a' /\ b ++ $"]" = b' ++ $"]").
  { clear - E Ha Ha'. revert a' Ha' E. induction a as [|x a IH]; intros [|y a'] Ha' E; cbn in E.
    - injection E as E. auto.
    - injection E as <- E. destruct Ha'. left. reflexivity.
    - injection E as -> E. destruct Ha. left. reflexivity.
    - injection E as <- E. destruct (IH (fun H => Ha (or_intror H)) a' (fun H => Ha' (or_intror H)) E) as [-> K]. auto. }
  destruct X as [_ X]. now apply app_inv_tail in X.
Qed.
Lemma enforce_note d r : (exists note, declHasEnforceAttribute (Some d) r [] = (true, note) /\ marked_with d r note)
  \/ (declHasEnforceAttribute (Some d) r [] = (false, []) /\ forall note, ~ marked_with d r note).
Proof.
  unfold declHasEnforceAttribute, marked_with. rewrite action_searched.
  destruct (enforce_loop r (searched d) []) as [(a & rest & F & -> & K)|[N K]].
  - left. destruct K as [(b & Hb & K)|[Hb K]]; rewrite K.
    + exists b. split; auto. eexists. split; [exact F|]. exists rest. auto.
    + exists []. split; auto. eexists. split; [exact F|]. exists rest. auto.
  - right. split; auto. intros note (a & (u & v & E & Ha & _) & _). eapply N; [|exact Ha]. rewrite E. apply in_or_app. right. left. reflexivity.
Qed.
Lemma note_fun d r a b : marked_with d r a -> marked_with d r b -> a = b.
Proof.
  intros (x & F & rest & -> & K) (y & F' & rest' & -> & K').
  pose proof (first_such_det _ _ _ _ F F') as E. rewrite !enforce_name in E. apply app_inv_head in E. subst.
  destruct K as [K|[K ->]], K' as [K'|[K' ->]]; auto; [eapply bracket_fun; eauto|destruct (K' _ K)|destruct (K _ K')].
Qed.
Lemma searched_consulted : forall d a, In a (searched d) <-> exists l, consulted d l /\ In a l.
Proof.
  fix IH 1.
  assert (IHc : forall cats a, In a (searched_in cats) <-> exists l, consulted_in cats l /\ In a l).
  { fix IHc 1. intros [|[d|] rest] a; cbn [searched_in].
    - split; [intros []|]. intros (l & H & _). inversion H.
    - rewrite in_app_iff, (IH d a), (IHc rest a). split.
      + intros [(l & H & K)|(l & H & K)]; exists l; (split; [|auto]); [now apply ci_here|now apply ci_later].
      + intros (l & H & K). inversion H; subst; eauto.
    - rewrite (IHc rest a). split; intros (l & H & K); exists l; (split; [|auto]); [now apply ci_later|]. now inversion H; subst. }
  intros [own [[acc prop ctx]|]] a; cbn [searched].
  - rewrite !in_app_iff. split.
    + intros [H|[H|H]].
      * exists own. split; auto. constructor.
      * destruct acc; [|destruct H]. destruct prop as [p|]; [|destruct H]. exists p. split; auto. constructor.
      * destruct ctx as [|[l|]|[cats|]]; try destruct H; [exists l; split; [constructor|auto]|].
        apply IHc in H as (l & H & K). exists l. split; auto. now constructor.
    + destruct ctx as [|[l0|]|[cats|]]; [| | |specialize (IHc cats a)|]; clear IH; intros (l & H & K); inversion H; subst; auto.
      right. right. apply IHc. eauto.
  - split.
    + intros H. exists own. split; auto. constructor.
    + intros (l & H & K). inversion H; subst; auto.
Qed.

(** ** Cocoa *)
Lemma find_method s ms : existsb (str_eqb s) (map fst (filter snd ms)) = true <-> In (s, true) ms.
Proof.
  rewrite existsb_exists. split.
  - intros (x & H & E). apply str_eqb_eq in E. subst. apply in_map_iff in H as ([y b] & <- & H). apply filter_In in H as [H K]. cbn in *. now subst.
  - intros H. exists s. split; [|apply str_eqb_refl]. apply in_map_iff. exists (s, true). split; auto. now apply filter_In.
Qed.
Lemma equal_node n : equal_without_hash n /\ IsEqualHash_visit n = [Report n $"If you override isEqual you must override hash too."]
  \/ ~ equal_without_hash n /\ IsEqualHash_visit n = [].
Proof.
  unfold IsEqualHash_visit. destruct (n_shape n) eqn:S;
    try (right; split; [intros (o & (l & H & _) & _); congruence|reflexivity]).
  assert (G : forall o l, n_shape n = ObjCContainerDecl o l -> o = info) by (intros o l H; rewrite S in H; now injection H as <- <-).
  destruct info as [k nm ln iv ms cl sm]. destruct k; try (right; split; [intros (o & (l & H & K) & _); rewrite (G _ _ H) in K; discriminate|reflexivity]).
  destruct (existsb (str_eqb $"isEqual:") (map fst (filter snd ms))) eqn:A; cbn [andb].
  - apply find_method in A. destruct (existsb (str_eqb $"hash") (map fst (filter snd ms))) eqn:B; cbn [negb]; [right|left]; (split; [|reflexivity]).
    + apply find_method in B. intros (o & (l & H & K) & _ & N). rewrite (G _ _ H) in N. auto.
    + eexists. split; [exists members; split; [exact S|reflexivity]|]. cbn [oc_methods]. split; auto.
      intros H. apply find_method in H. congruence.
  - right. split; [|reflexivity]. intros (o & (l & H & K) & N & _). rewrite (G _ _ H) in N. apply find_method in N. cbn in N. congruence.
Qed.
Lemma super_call_iff s n : isSuperCall s n = true <-> exists i, message n i /\ ms_selector i = s /\ ms_receiver i = RSuperInstance.
Proof.
  unfold isSuperCall, message. destruct (n_shape n) eqn:S; split; try discriminate; try (intros (i & (r & a & H) & _); congruence).
  - intros H. apply andb_prop in H as [H K]. apply str_eqb_eq in H. exists info. split; [eauto|]. split; auto. destruct (ms_receiver info); auto; discriminate.
  - intros (i & (r & a & H) & <- & K). injection H as <- <- <-. now rewrite K, str_eqb_refl.
Qed.
Lemma found_super s n : foundSuperCall s n = true <-> calls_super n s.
Proof.
  unfold foundSuperCall. rewrite traverse_nodes, visit_all_true by auto. cbn [snd].
  assert (G : forall l b, fold_left (fun f m => if isSuperCall s m then true else f) l b = true <-> b = true \/ exists m, In m l /\ isSuperCall s m = true).
  { induction l as [|x l IH]; intros b; cbn.
    - split; auto. intros [H|(m & [] & _)]; auto.
    - rewrite IH. destruct (isSuperCall s x) eqn:E.
      + split; auto. intros _. right. exists x. auto.
      + split; intros [H|(m & H & K)]; auto; right; exists m; [auto|]. destruct H as [->|H]; [congruence|auto]. }
  rewrite G. unfold calls_super. split.
  - intros [H|(m & H & K)]; [discriminate|]. apply in_nodes in H. apply super_call_iff in K as (i & A & B). exists m, i. auto.
  - intros (m & i & H & A & B & C). right. exists m. rewrite in_nodes, super_call_iff. eauto 6.
Qed.
Lemma requires_iff mi : declRequiresSuperCall mi = true <-> om_overriding mi = true /\ exists d, In d (om_overridden mi) /\ marked d $"base method".
Proof.
  unfold declRequiresSuperCall. rewrite andb_true_iff, existsb_exists. split; intros (A & d & B & C); (split; [exact A|exists d; split; [exact B|]]); eapply enforce_iff; exact C.
Qed.
Lemma super_node n : (exists m, forgets_super n m /\ MustCallSuper_visit n = [Report n m])
  \/ ((forall m, ~ forgets_super n m) /\ MustCallSuper_visit n = []).
Proof.
  unfold MustCallSuper_visit. destruct (n_shape n) eqn:S;
    try (right; split; [intros m (s & (mi & ps & b & H & _) & _); congruence|reflexivity]).
  destruct (declRequiresSuperCall info) eqn:R.
  - destruct (foundSuperCall (om_selector info) n) eqn:F; cbn [negb].
    + right. split; [|reflexivity]. intros m (s & (mi & ps & b & H & <- & _) & N & _). rewrite S in H. injection H as <- <- <-.
      apply N. now apply found_super.
    + left. eexists. split; [|reflexivity]. exists (om_selector info). apply requires_iff in R as [A B].
      split; [do 3 eexists; split; [exact S|auto]|]. split; [|reflexivity]. intros K. apply found_super in K. congruence.
  - right. split; [|reflexivity]. intros m (s & (mi & ps & b & H & <- & A & B) & _). rewrite S in H. injection H as <- <- <-.
    assert (X : declRequiresSuperCall info = true) by (apply requires_iff; auto). congruence.
Qed.
Lemma with_comment d c : withComment d c = d ++ (if is_nil c then [] else $" instead use " ++ c).
Proof. destruct c; cbn [is_nil withComment]; [now rewrite app_nil_r|reflexivity]. Qed.
Lemma call_det n k s d k' s' d' : call n k s d -> call n k' s' d' -> k = k' /\ s = s' /\ d = d'.
Proof.
  intros C C'. inversion C as [? nm ? c a H|? i ? (r & a & H) M]; subst; inversion C' as [? nm' ? c' a' H'|? i' ? (r' & a' & H') M']; subst;
    rewrite H in H'; try discriminate; injection H'; intros; subst; auto. rewrite M in M'. injection M' as ->. auto.
Qed.
Lemma prohibited_call n k s d : call n k s d ->
  (exists note, declHasEnforceAttribute (Some d) $"prohibited method" [] = (true, note)
     /\ prohibited n (withComment ($"calling prohibited " ++ k ++ $" " ++ s) note))
  \/ (declHasEnforceAttribute (Some d) $"prohibited method" [] = (false, []) /\ forall m, ~ prohibited n m).
Proof.
  intros C. destruct (enforce_note d $"prohibited method") as [(note & E & M)|[E N]].
  - left. exists note. split; auto. exists k, s, d, note. split; auto. split; auto. rewrite with_comment, <- !app_assoc. reflexivity.
  - right. split; auto. intros m (k' & s' & d' & note & C' & M & _). destruct (call_det _ _ _ _ _ _ _ C C') as (_ & _ & ->). destruct (N _ M).
Qed.
Lemma no_call n : (forall k s d, ~ call n k s d) -> forall m, ~ prohibited n m.
Proof. intros N m (k & s & d & note & C & _). destruct (N _ _ _ C). Qed.
Lemma prohibited_node n : (exists m, prohibited n m /\ ProhibitedCall_visit n = [Report n m])
  \/ ((forall m, ~ prohibited n m) /\ ProhibitedCall_visit n = []).
Proof.
  unfold ProhibitedCall_visit. destruct (n_shape n) eqn:S;
    try (right; split; [apply no_call; intros k s d C; inversion C as [? ? ? ? ? H|? ? ? (r & a & H) ?]; congruence|reflexivity]).
  - destruct directCallee as [[name d]|]; cbn [option_map snd].
    + destruct (prohibited_call n _ _ _ (ca_function n name d _ _ S)) as [(note & E & P)|[E N]]; rewrite E; [|auto]. left. eexists. split; [exact P|reflexivity].
    + right. split; [|reflexivity]. apply no_call. intros k s d C. inversion C as [? ? ? ? ? H|? ? ? (r & a & H) ?]; congruence.
  - destruct (ms_method info) as [d|] eqn:M.
    + destruct (prohibited_call n _ _ _ (ca_method n info d (ex_intro _ _ (ex_intro _ _ S)) M)) as [(note & E & P)|[E N]]; rewrite E; [|auto]. left. eexists. split; [exact P|reflexivity].
    + right. split; [|reflexivity]. apply no_call. intros k s d C. inversion C as [? ? ? ? ? H|? ? ? (r & a & H) K]; subst; [congruence|].
      rewrite S in H. injection H as <- <- <-. congruence.
Qed.
(** *** Protected methods *)
Definition trespassInfo (classes : list str) (n : node) : option msginfo :=
  match n_shape n with
  | ObjCMessageExpr i _ _ =>
      if fst (declHasEnforceAttribute (ms_method i) $"protected method" []) then
        match ms_interface i with Some c => if existsb (str_eqb c) classes then None else Some i | None => None end
      else None
  | _ => None
  end.
Lemma trespass_iff classes n i : trespasses classes n i <-> trespassInfo classes n = Some i.
Proof.
  unfold trespasses, trespassInfo, message. split.
  - intros ((r & a & ->) & (d & -> & M) & c & -> & N). apply (enforce_iff d _ []) in M. rewrite M.
    destruct (existsb (str_eqb c) classes) eqn:E; auto. apply existsb_exists in E as (x & H & E). apply str_eqb_eq in E. now subst.
  - destruct (n_shape n) eqn:S; try discriminate. destruct (ms_method info) as [d|] eqn:M; [|discriminate].
    destruct (fst (declHasEnforceAttribute (Some d) $"protected method" [])) eqn:E; [|discriminate].
    destruct (ms_interface info) as [c|] eqn:C; [|discriminate]. destruct (existsb (str_eqb c) classes) eqn:X; [discriminate|].
    intros [= <-]. split; [eauto|]. split; [exists d; split; [exact M|now apply enforce_iff in E]|]. exists c. split; auto.
    intros H. assert (existsb (str_eqb c) classes = true) by (apply existsb_exists; exists c; split; [auto|apply str_eqb_refl]). congruence.
Qed.
Lemma inside_visit classes n vs : CheckMethodsInsideClass_visit classes n vs
  = vs ++ match trespassInfo classes n with Some i => [(n, i)] | None => [] end.
Proof.
  unfold CheckMethodsInsideClass_visit, trespassInfo, isObjCInterfaceClassOrSubclass. destruct (n_shape n); try now rewrite app_nil_r.
  destruct (fst _); cbn [negb]; [|now rewrite app_nil_r]. destruct (ms_interface info); [|now rewrite app_nil_r].
  destruct (existsb _ _); cbn [negb]; [now rewrite app_nil_r|reflexivity].
Qed.
Definition found_in (classes : list str) (n : node) : list (node * msginfo) :=
  flat_map (fun m => match trespassInfo classes m with Some i => [(m, i)] | None => [] end) (nodes n).
Lemma inside_found classes n :
  snd (traverse (fun x vs => (true, CheckMethodsInsideClass_visit classes x vs)) n []) = found_in classes n.
Proof.
  rewrite traverse_nodes, visit_all_true by auto. cbn [snd]. unfold found_in.
  assert (G : forall l acc, fold_left (fun s m => CheckMethodsInsideClass_visit classes m s) l acc
    = acc ++ flat_map (fun m => match trespassInfo classes m with Some i => [(m, i)] | None => [] end) l).
  { induction l as [|x l IH]; intros acc; cbn; [now rewrite app_nil_r|]. now rewrite IH, inside_visit, <- app_assoc. }
  apply (G _ []).
Qed.
Lemma found_sublist classes n : sublist_where (fun m => exists i, trespasses classes m i) (nodes n) (map fst (found_in classes n)).
Proof.
  unfold found_in. induction (nodes n) as [|x l IH]; cbn; [constructor|]. destruct (trespassInfo classes x) as [i|] eqn:E; cbn.
  - constructor; auto. exists i. now apply trespass_iff.
  - constructor; auto. intros (i & H). apply trespass_iff in H. congruence.
Qed.
Lemma protected_val vs rs : (forall p, In p vs -> message (fst p) (snd p)) -> protectedReports vs = Val rs -> Forall2 trespass_report (map fst vs) rs.
Proof.
  revert rs. induction vs as [|[x i] vs IH]; intros rs M; cbn.
  - intros [= <-]. constructor.
  - destruct (ms_methodClass i) as [c|] eqn:C; [|discriminate]. destruct (protectedReports vs) as [rs'| |]; try discriminate.
    cbn. intros [= <-]. constructor.
    + exists i, c. split; [apply (M (x, i)); left; reflexivity|]. auto.
    + apply IH; auto. intros p Hp. apply M. right. auto.
Qed.
Lemma protected_cases vs : (forall p, In p vs -> ms_methodClass (snd p) <> None) /\ (exists rs, protectedReports vs = Val rs)
  \/ (exists p, In p vs /\ ms_methodClass (snd p) = None) /\ protectedReports vs = UB.
Proof.
  induction vs as [|[x i] vs IH]; cbn.
  - left. split; [intros p []|eauto].
  - destruct (ms_methodClass i) as [c|] eqn:C.
    + destruct IH as [[A (rs & ->)]|[(p & Hp & B) ->]]; cbn.
      * left. split; [|eauto]. intros p [<-|H]; [cbn; congruence|auto].
      * right. split; [exists p; auto|reflexivity].
    + right. split; [|reflexivity]. exists (x, i). auto.
Qed.
Lemma in_found classes n m i : In (m, i) (found_in classes n) <-> below n m /\ trespasses classes m i.
Proof.
  unfold found_in. rewrite in_flat_map. split.
  - intros (x & Hx & H). destruct (trespassInfo classes x) as [j|] eqn:E; [|destruct H]. destruct H as [H|[]]. injection H as -> ->.
    rewrite <- in_nodes. split; auto. now apply trespass_iff.
  - intros [H K]. exists m. rewrite in_nodes. split; auto. apply trespass_iff in K. rewrite K. left. reflexivity.
Qed.
Lemma protected_node n : (~ classless_trespass n /\ exists rs, ProtectedMethod_visit n = Val rs /\ trespass_reports n rs)
  \/ (classless_trespass n /\ ProtectedMethod_visit n = UB).
Proof.
  unfold ProtectedMethod_visit, trespass_reports, classless_trespass, class_implementation.
  destruct (n_shape n) eqn:S; try (left; split; [intros (o & m & i & (l & H & _) & _); congruence|]; exists []; split; [reflexivity|];
    right; split; [intros o (l & H & _); congruence|reflexivity]).
  assert (G : forall o l, n_shape n = ObjCContainerDecl o l -> o = info) by (intros o l H; rewrite S in H; now injection H as <- <-).
  destruct info as [k nm ln iv ms cl sm].
  destruct k; try (left; split; [intros (o & m & i & (l & H & K) & _); injection H as <- <-; discriminate|]; exists []; split; [reflexivity|];
    right; split; [intros o (l & H & K); injection H as <- <-; discriminate|reflexivity]).
  destruct cl as [|c0 cl].
  { left. split; [intros (o & m & i & (l & H & K) & N & _); injection H as <- <-; now destruct N|]. exists []. split; [reflexivity|]. right. split; [|reflexivity].
    intros o (l & H & K). now injection H as <- <-. }
  rewrite inside_found. destruct (protected_cases (found_in (c0 :: cl) n)) as [[A (rs & E)]|[([m i] & Hp & B) E]]; rewrite E; [left|right].
  - split.
    + intros (o & m & i & (l & H & K) & _ & Bm & T & M). injection H as <- <-. cbn [oc_classes] in T.
      apply (A (m, i)); [|exact M]. apply in_found. auto.
    + exists rs. split; [reflexivity|]. left. do 2 eexists. split; [exists members; split; [reflexivity|reflexivity]|]. cbn [oc_classes].
      split; [discriminate|]. split; [apply found_sublist|]. apply protected_val; [|exact E]. intros [m i] H. apply in_found in H as (_ & M & _). exact M.
  - split; [|reflexivity]. apply in_found in Hp as [H K]. do 3 eexists. split; [exists members; split; reflexivity|]. cbn [oc_classes].
    split; [discriminate|]. split; [exact H|]. split; [exact K|exact B].
Qed.
Lemma has_method own s b : getMethod own s b = true <-> In (s, b) own.
Proof.
  unfold getMethod. rewrite existsb_exists. split.
  - intros ([x y] & H & K). apply andb_prop in K as [A B]. apply str_eqb_eq in A. apply Bool.eqb_prop in B. cbn in *. now subst.
  - intros H. exists (s, b). cbn. now rewrite str_eqb_refl, Bool.eqb_reflx.
Qed.
Lemma abstract_list n own parent ms : exists sel, sublist_where (unimplemented own) ms sel /\
  flat_map (fun method : str * bool * decl =>
        let '(selector, isInstance, d) := method in
        if fst (declHasEnforceAttribute (Some d) $"abstract method" []) then
          if negb (getMethod own selector isInstance) then
            [Report n ($"subclasses of " ++ parent ++ $" must implement " ++ selector)] else []
        else []) ms = map (fun m : str * bool * decl => Report n ($"subclasses of " ++ parent ++ $" must implement " ++ fst (fst m))) sel.
Proof.
  induction ms as [|[[s b] d] ms (sel & S & E)].
  - exists []. split; constructor.
  - cbn [flat_map]. destruct (fst (declHasEnforceAttribute (Some d) $"abstract method" [])) eqn:F.
    + destruct (getMethod own s b) eqn:G; cbn [negb].
      * exists sel. split; [|exact E]. constructor; auto. intros [_ N]. apply N. now apply has_method.
      * exists ((s, b, d) :: sel). split; [|cbn [map app fst]; f_equal; exact E]. constructor; auto. split; [now apply enforce_iff in F|].
        intros H. apply has_method in H. cbn in *. congruence.
    + exists sel. split; [|exact E]. constructor; auto. intros [M _]. apply (enforce_iff _ _ []) in M. cbn in *. congruence.
Qed.
Lemma abstract_node n : abstract_reports n (SubclassMustImplement_visit n).
Proof.
  unfold SubclassMustImplement_visit, abstract_reports, class_implementation.
  destruct (n_shape n) eqn:S; try (right; split; [intros o (l & H & _); congruence|reflexivity]).
  destruct info as [k nm ln iv ms cl sm].
  destruct k; try (right; split; [intros o (l & H & K); injection H as <- <-; discriminate|reflexivity]).
  destruct sm as [[parent methods]|].
  - left. destruct (abstract_list n ms parent methods) as (sel & A & B). do 4 eexists. split; [exists members; split; reflexivity|].
    split; [reflexivity|]. split; [exact A|exact B].
  - right. split; [|reflexivity]. intros o (l & H & K). now injection H as <- <-.
Qed.

(** ** Migration *)
Lemma mapFind_in m s t : NoDup (map fst m) -> (mapFind m s = Some t <-> In (s, t) m).
Proof.
  unfold mapFind. induction m as [|[k v] m IH]; cbn; intros D; [split; [discriminate|intros []]|].
  inversion D as [|? ? N D']; subst. destruct (str_eqb k s) eqn:E; cbn.
  - apply str_eqb_eq in E. subst. split; [intros [= ->]; auto|]. intros [H|H]; [now injection H as ->|].
    exfalso. apply N. apply in_map_iff. exists (s, t). auto.
  - rewrite IH by auto. split; auto. intros [H|H]; auto. injection H as -> ->. now rewrite str_eqb_refl in E.
Qed.
Lemma find_type m s ty : NoDup (map fst m) ->
  (match mapFind m s with Some t => str_eqb t ty | None => false end = true <-> In (s, ty) m).
Proof.
  intros D. rewrite <- mapFind_in by exact D. destruct (mapFind m s) as [t|]; [|split; discriminate].
  rewrite str_eqb_eq. split; congruence.
Qed.
Lemma contains_iff x l : vectorContains x l = true <-> In x l.
Proof.
  unfold vectorContains. rewrite existsb_exists. split; [intros (y & H & E); apply str_eqb_eq in E; now subst|]. intros H. exists x. split; [auto|apply str_eqb_refl].
Qed.
Lemma int_map s t : In (s, t) intSelArgTypeMap <-> number_maker s t.
Proof.
  unfold intSelArgTypeMap. split.
  - intros H. repeat (destruct H as [H|H]; [injection H as <- <-; constructor|]). destruct H.
  - destruct 1; [do 0 right|do 1 right|do 2 right|do 3 right|do 4 right|do 5 right]; left; reflexivity.
Qed.
Lemma float_map s t : In (s, t) floatSelArgTypeMap <-> float_maker s t.
Proof.
  unfold floatSelArgTypeMap. split.
  - intros H. repeat (destruct H as [H|H]; [injection H as <- <-; constructor|]). destruct H.
  - destruct 1; [left|right; left]; reflexivity.
Qed.
Lemma nodup_strs (l : list str) : (fix nd l := match l with [] => true | x :: l => negb (existsb (str_eqb x) l) && nd l end) l = true -> NoDup l.
Proof.
  induction l as [|x l IH]; intros H; constructor.
  - apply andb_prop in H as [H _]. intros K. assert (X : existsb (str_eqb x) l = true) by (apply existsb_exists; exists x; split; [auto|apply str_eqb_refl]). now rewrite X in H.
  - apply andb_prop in H as [_ H]. auto.
Qed.
Lemma nodup_int : NoDup (map fst intSelArgTypeMap). Proof. apply nodup_strs. vm_compute. reflexivity. Qed.
Lemma nodup_float : NoDup (map fst floatSelArgTypeMap). Proof. apply nodup_strs. vm_compute. reflexivity. Qed.
Lemma nodup_all : NoDup (map fst (($"numberWithChar:", $"char") :: intSelArgTypeMap ++ floatSelArgTypeMap)).
Proof. apply nodup_strs. vm_compute. reflexivity. Qed.
Lemma paren_dec e : parenthesis e \/ ~ parenthesis e.
Proof. unfold parenthesis. destruct (n_shape e); try (right; intros (x & H); discriminate). eauto. Qed.
Lemma paren_box a s m : NoDup (map fst m) -> (isParenExprBox a s m = true <-> parenthesis a /\ In (s, n_ty a) m).
Proof.
  intros D. unfold isParenExprBox, parenthesis. destruct (n_shape a) eqn:S; try (split; [discriminate|intros [(e & H) _]; discriminate]).
  rewrite find_type by exact D. split; [eauto|]. now intros [_ H].
Qed.
Lemma bool_box a s : isObjCBoolBox a s = true <->
  s = $"numberWithBool:" /\ exists k e, n_shape a = ImplicitCastExpr k e /\ n_ty a = $"BOOL" /\ parenthesis e.
Proof.
  unfold isObjCBoolBox, parenthesis. destruct (str_eqb s $"numberWithBool:") eqn:E.
  - apply str_eqb_eq in E. split.
    + intros H. split; [exact E|]. destruct (n_shape a); try discriminate. apply andb_prop in H as [A B]. apply str_eqb_eq in A.
      do 2 eexists. split; [reflexivity|]. split; [exact A|]. destruct (n_shape sub); try discriminate. eauto.
    + intros (_ & k & e & -> & -> & x & ->). now rewrite str_eqb_refl.
  - split; [discriminate|]. intros [-> _]. now rewrite str_eqb_refl in E.
Qed.
Lemma enum_box a s : isEnumConstantBox a s = true <->
  s = $"numberWithInt:" /\ exists d x, n_shape a = DeclRefExpr d x true /\ n_ty a = $"int".
Proof.
  unfold isEnumConstantBox. destruct (str_eqb s $"numberWithInt:") eqn:E.
  - apply str_eqb_eq in E. split.
    + intros H. split; [exact E|]. destruct (n_shape a); try discriminate. apply andb_prop in H as [A B]. apply str_eqb_eq in A. subst. eauto.
    + intros (_ & k & e & -> & ->). now rewrite str_eqb_refl.
  - split; [discriminate|]. intros [-> _]. now rewrite str_eqb_refl in E.
Qed.
Lemma string_box s a : isNSStringBox s a = true <-> s = $"stringWithUTF8String:" /\ exists k e, n_shape a = ImplicitCastExpr k e
  /\ n_ty a = $"const char *" /\ n_ty e = $"char *" /\ (parenthesis e \/ exists d c l, n_shape e = CallExpr d c l).
Proof.
  unfold isNSStringBox, parenthesis. split.
  - destruct (n_shape a) eqn:S; try discriminate. destruct (str_eqb s $"stringWithUTF8String:") eqn:E; [|discriminate]. apply str_eqb_eq in E.
    intros H. apply andb_prop in H as [H C]. apply andb_prop in H as [A B]. apply str_eqb_eq in A, B. split; [exact E|].
    do 2 eexists. split; [reflexivity|]. split; [exact A|]. split; [exact B|]. destruct (n_shape sub); try discriminate; eauto.
  - intros (-> & k & e & -> & -> & -> & [(x & ->)|(d & c & l & ->)]); now rewrite !str_eqb_refl.
Qed.
Lemma number_box s a : isNSNumberBox s a = true <->
  (parenthesis a /\ (s = $"numberWithChar:" /\ n_ty a = $"char" \/ number_maker s (n_ty a) \/ float_maker s (n_ty a)))
  \/ (s = $"numberWithBool:" /\ exists k e, n_shape a = ImplicitCastExpr k e /\ n_ty a = $"BOOL" /\ parenthesis e)
  \/ (s = $"numberWithInt:" /\ exists d x, n_shape a = DeclRefExpr d x true /\ n_ty a = $"int").
Proof.
  unfold isNSNumberBox. rewrite !orb_true_iff, bool_box, enum_box, paren_box by apply nodup_all.
  assert (X : In (s, n_ty a) (($"numberWithChar:", $"char") :: intSelArgTypeMap ++ floatSelArgTypeMap)
    <-> (s = $"numberWithChar:" /\ n_ty a = $"char" \/ number_maker s (n_ty a) \/ float_maker s (n_ty a))).
  { cbn [In]. rewrite in_app_iff, int_map, float_map. split; intros [H|H]; auto; left; [injection H as <- <-; auto|]. destruct H as [-> ->]. reflexivity. }
  rewrite X. tauto.
Qed.
(** The outcome of a test on the interface and selector of a message. *)
Lemma message_test (P : node -> Prop) f n (b : msginfo -> str -> list node -> bool) :
  (forall i r args, n_shape n = ObjCMessageExpr i r args -> forall c, ms_interface i = Some c ->
     f n = (if b i c args then [plainReport n] else [])) ->
  (forall i r args, n_shape n = ObjCMessageExpr i r args -> ms_interface i = None -> f n = []) ->
  ((forall i r args, n_shape n <> ObjCMessageExpr i r args) -> f n = []) ->
  (P n <-> exists i r args c, n_shape n = ObjCMessageExpr i r args /\ ms_interface i = Some c /\ b i c args = true) ->
  P n /\ f n = [plainReport n] \/ ~ P n /\ f n = [].
Proof.
  intros A B C D. destruct (n_shape n) eqn:S; try (right; split; [rewrite D; intros (i & r & l & c & H & _); discriminate|apply C; intros; discriminate]).
  destruct (ms_interface info) as [c|] eqn:I.
  - pose proof (A _ _ _ eq_refl c I) as F. destruct (b info c args) eqn:E; [left|right]; (split; [|exact F]).
    + rewrite D. do 4 eexists. eauto.
    + rewrite D. intros (i & r & args' & c' & H & H' & K). injection H as <- <- <-. rewrite I in H'. injection H' as <-. congruence.
  - right. split; [|apply (B _ _ _ eq_refl I)]. rewrite D. intros (i & r & args' & c' & H & H' & K). injection H as <- <- <-. congruence.
Qed.
Lemma boxed_node n : boxable n /\ BoxedExpressions_visit n = [plainReport n] \/ ~ boxable n /\ BoxedExpressions_visit n = [].
Proof.
  apply (message_test boxable BoxedExpressions_visit n (fun i c args => match args with
    | [arg] => (str_eqb c $"NSNumber" && isNSNumberBox (ms_selector i) arg) || (str_eqb c $"NSString" && isNSStringBox (ms_selector i) arg)
    | _ => false end)).
  - intros i r args S c C. unfold BoxedExpressions_visit. rewrite S. destruct args as [|a [|]]; auto. rewrite C. reflexivity.
  - intros i r args S C. unfold BoxedExpressions_visit. rewrite S. destruct args as [|a [|]]; auto. rewrite C. reflexivity.
  - intros N. unfold BoxedExpressions_visit. destruct (n_shape n) eqn:S; auto. destruct (N _ _ _ eq_refl).
  - split.
    + assert (G : forall c s a, message_to n c s [a] -> (str_eqb c $"NSNumber" && isNSNumberBox s a) || (str_eqb c $"NSString" && isNSStringBox s a) = true ->
        exists i r args c, n_shape n = ObjCMessageExpr i r args /\ ms_interface i = Some c /\ match args with
          | [arg] => (str_eqb c $"NSNumber" && isNSNumberBox (ms_selector i) arg) || (str_eqb c $"NSString" && isNSStringBox (ms_selector i) arg)
          | _ => false end = true).
      { intros c s a (i & r & S & C & <-) H. exists i, r, [a], c. auto. }
      intros H. inversion H as [? s a M P K|? a k e M S T P|? a d x M S T|? a k e M S T T' K]; subst; eapply G; eauto; rewrite str_eqb_refl; cbn [andb].
      * apply orb_true_iff. left. apply number_box. auto.
      * apply orb_true_iff. left. apply number_box. right. left. eauto 6.
      * apply orb_true_iff. left. apply number_box. right. right. eauto 6.
      * apply orb_true_iff. right. apply string_box. eauto 9.
    + intros (i & r & args & c & S & C & H). destruct args as [|a [|]]; try discriminate.
      assert (M : message_to n c (ms_selector i) [a]) by (exists i, r; auto).
      apply orb_true_iff in H as [H|H]; apply andb_prop in H as [E H]; apply str_eqb_eq in E; subst c.
      * apply number_box in H as [[P K]|[(E & k & e & A & B & P)|(E & d & x & A & B)]].
        -- eapply bx_paren; eauto.
        -- rewrite E in M. eapply bx_bool; eauto.
        -- rewrite E in M. eapply bx_enum; eauto.
      * apply string_box in H as (E & k & e & A & B & T & P). rewrite E in M. eapply bx_string; eauto.
Qed.
Lemma boolean_iff a : isObjCBoolLiteral a $"numberWithBool:" = true <-> boolean_literal a.
Proof.
  unfold isObjCBoolLiteral, boolean_literal. rewrite str_eqb_refl. split.
  - destruct (n_shape a) eqn:S; try discriminate; [|eauto]. destruct (n_shape sub) eqn:S'; try discriminate. intros H. apply andb_prop in H as [A B].
    apply str_eqb_eq in B. right. destruct (n_shape sub0) eqn:S''; try discriminate. do 4 eexists. eauto.
  - intros [(v & ->)|(c & k & e & v & -> & -> & -> & ->)]; reflexivity.
Qed.
Lemma simplify_iff s a : canSimplify s a = true <->
  (s = $"numberWithChar:" /\ exists k e v, n_shape a = ImplicitCastExpr k e /\ n_shape e = CharacterLiteral v)
  \/ (number_maker s (n_ty a) /\ exists v, n_shape a = IntegerLiteral v)
  \/ (float_maker s (n_ty a) /\ exists v, n_shape a = FloatingLiteral v)
  \/ (s = $"numberWithBool:" /\ boolean_literal a).
Proof.
  unfold canSimplify. rewrite !orb_true_iff.
  assert (A : isCharLiteral a s = true <-> s = $"numberWithChar:" /\ exists k e v, n_shape a = ImplicitCastExpr k e /\ n_shape e = CharacterLiteral v).
  { unfold isCharLiteral. destruct (str_eqb s $"numberWithChar:") eqn:E.
    - apply str_eqb_eq in E. split.
      + intros H. split; [exact E|]. destruct (n_shape a); try discriminate. destruct (n_shape sub) eqn:S; try discriminate. eauto 6.
      + now intros (_ & k & e & v & -> & ->).
    - split; [discriminate|]. intros [-> _]. now rewrite str_eqb_refl in E. }
  assert (B : isLiteralOf (fun e => match n_shape e with IntegerLiteral _ => true | _ => false end) a s intSelArgTypeMap = true
    <-> number_maker s (n_ty a) /\ exists v, n_shape a = IntegerLiteral v).
  { unfold isLiteralOf. rewrite andb_true_iff, find_type, int_map by apply nodup_int.
    destruct (n_shape a); split; intros [H K]; try discriminate; try (destruct K; discriminate); eauto. }
  assert (C : isLiteralOf (fun e => match n_shape e with FloatingLiteral _ => true | _ => false end) a s floatSelArgTypeMap = true
    <-> float_maker s (n_ty a) /\ exists v, n_shape a = FloatingLiteral v).
  { unfold isLiteralOf. rewrite andb_true_iff, find_type, float_map by apply nodup_float.
    destruct (n_shape a); split; intros [H K]; try discriminate; try (destruct K; discriminate); eauto. }
  assert (D : isObjCBoolLiteral a s = true <-> s = $"numberWithBool:" /\ boolean_literal a).
  { destruct (str_eqb s $"numberWithBool:") eqn:E.
    - apply str_eqb_eq in E. subst. rewrite boolean_iff. tauto.
    - unfold isObjCBoolLiteral. rewrite E. split; [discriminate|]. intros [-> _]. now rewrite str_eqb_refl in E. }
  rewrite A, B, C, D. tauto.
Qed.
Lemma literal_node n : number_literal n /\ NSNumberLiterals_visit n = [plainReport n] \/ ~ number_literal n /\ NSNumberLiterals_visit n = [].
Proof.
  apply (message_test number_literal NSNumberLiterals_visit n (fun i c args => match args with
    | [arg] => str_eqb c $"NSNumber" && canSimplify (ms_selector i) arg | _ => false end)).
  - intros i r args S c C. unfold NSNumberLiterals_visit. rewrite S. destruct args as [|a [|]]; auto. rewrite C. reflexivity.
  - intros i r args S C. unfold NSNumberLiterals_visit. rewrite S. destruct args as [|a [|]]; auto. rewrite C. reflexivity.
  - intros N. unfold NSNumberLiterals_visit. destruct (n_shape n) eqn:S; auto. destruct (N _ _ _ eq_refl).
  - split.
    + intros (s & a & (i & r & S & C & <-) & K). exists i, r, [a], $"NSNumber". split; [exact S|]. split; [exact C|]. rewrite str_eqb_refl. now apply simplify_iff.
    + intros (i & r & args & c & S & C & H). destruct args as [|a [|]]; try discriminate. apply andb_prop in H as [E H]. apply str_eqb_eq in E. subst c.
      exists (ms_selector i), a. split; [exists i, r; auto|]. now apply simplify_iff.
Qed.
Lemma container_node n : container_literal n /\ ContainerLiterals_visit n = [plainReport n] \/ ~ container_literal n /\ ContainerLiterals_visit n = [].
Proof.
  apply (message_test container_literal ContainerLiterals_visit n (fun i c args =>
    (str_eqb c $"NSArray" && vectorContains (ms_selector i) arraySelectors) || (str_eqb c $"NSDictionary" && vectorContains (ms_selector i) dictionarySelectors))).
  - intros i r args S c C. unfold ContainerLiterals_visit. rewrite S, C. reflexivity.
  - intros i r args S C. unfold ContainerLiterals_visit. rewrite S, C. reflexivity.
  - intros N. unfold ContainerLiterals_visit. destruct (n_shape n) eqn:S; auto. destruct (N _ _ _ eq_refl).
  - assert (G : forall c s, (str_eqb c $"NSArray" && vectorContains s arraySelectors) || (str_eqb c $"NSDictionary" && vectorContains s dictionarySelectors) = true
      <-> container_maker c s).
    { intros c s. rewrite orb_true_iff, !andb_true_iff, !str_eqb_eq, !contains_iff. split.
      - intros [[-> H]|[-> H]]; constructor; cbn [In arraySelectors dictionarySelectors] in *; tauto.
      - intros H. inversion H as [? K|? K]; subst; [left|right]; (split; [reflexivity|]); cbn [In arraySelectors dictionarySelectors] in *; tauto. }
    split.
    + intros (c & s & args & (i & r & S & C & <-) & K). exists i, r, args, c. split; [exact S|]. split; [exact C|]. now apply G.
    + intros (i & r & args & c & S & C & H). exists c, (ms_selector i), args. split; [exists i, r; auto|]. now apply G.
Qed.
Lemma subscript_iff r s : subscriptSelector r s $"NSArray *" [$"objectAtIndex:"; $"objectAtIndexedSubscript:"]
   || subscriptSelector r s $"NSMutableArray *" [$"replaceObjectAtIndex:withObject:"; $"setObject:atIndexedSubscript:"]
   || subscriptSelector r s $"NSDictionary *" [$"objectForKey:"; $"objectForKeyedSubscript:"]
   || subscriptSelector r s $"NSMutableDictionary *" [$"setObject:forKey:"; $"setObject:forKeyedSubscript:"] = true <-> subscript (n_ty r) s.
Proof.
  unfold subscriptSelector. rewrite !orb_true_iff, !andb_true_iff, !str_eqb_eq, !contains_iff. split.
  - intros [[[[-> H]|[-> H]]|[-> H]]|[-> H]]; constructor; exact H.
  - intros H. inversion H as [? K E|? K E|? K E|? K E]; subst; auto.
Qed.
Lemma subscript_node n : subscriptable n /\ ObjectSubscripting_visit n = [plainReport n] \/ ~ subscriptable n /\ ObjectSubscripting_visit n = [].
Proof.
  unfold ObjectSubscripting_visit, subscriptable.
  destruct (n_shape n) eqn:S; try (right; split; [intros (i & r & k & e & a & H & _); discriminate|reflexivity]).
  destruct instanceReceiver as [r|]; [|right; split; [intros (i & r & k & e & a & H & _); discriminate|reflexivity]].
  destruct (n_shape r) eqn:R; try (right; split; [intros (i & r' & k & e & a & H & K & _); injection H as <- <- <-; congruence|reflexivity]).
  match goal with |- context [if ?b then _ else _] => destruct b eqn:E end; [left|right]; (split; [|reflexivity]).
  - apply subscript_iff in E. do 5 eexists. eauto.
  - intros (i & r' & k & e & a & H & K & X). injection H as <- <- <-. apply subscript_iff in X. congruence.
Qed.
Lemma message_to_det n c s a c' s' a' : message_to n c s a -> message_to n c' s' a' -> c = c' /\ s = s' /\ a = a'.
Proof. intros (i & r & S & C & E) (i' & r' & S' & C' & E'). rewrite S in S'. injection S' as <- <- <-. rewrite C in C'. injection C' as <-. subst. auto. Qed.
