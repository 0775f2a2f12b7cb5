(** * Languages of the shipped rules: C119 *)
From Verif Require Import Base BaseFacts ModelResults ModelConfig ModelSource ModelAST ModelRules ModelRulesVars ModelRuleTable ModelProgram
  SpecFilter SpecAST SpecSource SpecRules SpecProgram SpecCatalogue SpecLanguages
  ProofRules ProofProgram PropSource PropRuleTable PropProgram PropCatalogue.
Local Arguments lit : simpl never.

Definition memb (name : str) (l : list str) : bool := existsb (str_eqb name) l.
Lemma memb_In name l : memb name l = true <-> In name l.
Proof.
  unfold memb. rewrite existsb_exists. split; [intros (y & I & E); apply str_eqb_eq in E; now subst|].
  intros I. exists name. split; auto. apply str_eqb_refl.
Qed.
Lemma memb_not name l : memb name l = false <-> ~ In name l.
Proof. rewrite <- memb_In. destruct (memb name l); split; intuition congruence. Qed.
Definition meantb (name : str) (l : language) : bool :=
  (negb (memb name objc_rules) || match l with ObjC => true | _ => false end)
  && (negb (memb name cxx_rules) || match l with Cxx => true | _ => false end)
  && (negb (memb name c_cxx_rules) || match l with ObjC => false | _ => true end).
Lemma meantb_iff name l : meantb name l = true <-> meant_for name l.
Proof.
  unfold meantb, meant_for. rewrite !andb_true_iff, !orb_true_iff, !negb_true_iff, !memb_not, <- !memb_In.
  destruct (memb name objc_rules), (memb name cxx_rules), (memb name c_cxx_rules), l; intuition congruence.
Qed.
Lemma meant_supports s l : In s shipped_rules -> meant_for (sh_name s) l <-> supports (sh_supportedLanguages s) l.
Proof.
  intros I. rewrite <- meantb_iff. unfold supports.
  assert (F : forallb (fun s => forallb (fun l => eqb (meantb (sh_name s) l)
      (N.testbit (sh_supportedLanguages s) (match l with C => 0 | Cxx => 1 | ObjC => 2 end)%N)) [C; Cxx; ObjC]) shipped_rules = true)
    by (vm_compute; reflexivity).
  pose proof (forallb_Forall' _ _ F s I) as G. cbv beta in G. rewrite forallb_forall in G.
  assert (J : In l [C; Cxx; ObjC]) by (destruct l; cbn; auto). specialize (G l J). apply eqb_prop in G. rewrite G. reflexivity.
Qed.
Lemma host_bits s : In s shipped_rules ->
  (supports_host (sh_supportedCUDA s) <-> ~ kernel_only (sh_name s)) /\ (supports_kernels (sh_supportedCUDA s) <-> kernels_too (sh_name s)).
Proof.
  intros I. unfold supports_host, supports_kernels, kernel_only, kernels_too, kernel_only.
  assert (F : forallb (fun s => eqb (N.testbit (sh_supportedCUDA s) 0) (negb (str_eqb (sh_name s) $"branch divergence"))
       && eqb (N.testbit (sh_supportedCUDA s) 1) (str_eqb (sh_name s) $"branch divergence" || str_eqb (sh_name s) $"high cyclomatic complexity")) shipped_rules = true)
    by (vm_compute; reflexivity).
  pose proof (forallb_Forall' _ _ F s I) as G. cbv beta in G. apply andb_true_iff in G as [G1 G2]. apply eqb_prop in G1, G2.
  rewrite G1, G2, negb_true_iff, orb_true_iff, !str_eqb_eq, str_eqb_neq. tauto.
Qed.

(** The declarations a rule looks at. *)
Theorem c119_examined : forall k s name x t, named k s name -> In t (cx_tops x) ->
  (inspected (cx_lang x) (sh_supportedLanguages s) (sh_supportedCUDA s) (fst t) <->
   in_main (fst t)
   /\ (lo_cuda (cx_lang x) = false -> ~ kernel_only name /\ exists l, language_of (cx_lang x) l /\ meant_for name l)
   /\ (lo_cuda (cx_lang x) = true ->
       match t_kind (fst t) with TFunction true => kernels_too name | TFunction false => ~ kernel_only name | TOther => True end)).
Proof.
  intros k s name x t [K <-] It. pose proof (nth_error_In _ _ K) as I. destruct (host_bits s I) as [Hh Hk].
  assert (M : (exists l, language_of (cx_lang x) l /\ supports (sh_supportedLanguages s) l) <-> (exists l, language_of (cx_lang x) l /\ meant_for (sh_name s) l)).
  { split; intros (l & A & B); exists l; split; auto; apply meant_supports; auto. }
  unfold inspected, cuda_relevant. rewrite M, Hh. destruct (lo_cuda (cx_lang x)).
  - destruct (t_kind (fst t)) as [[|]|]; rewrite ?Hk, ?Hh; intuition congruence.
  - intuition congruence.
Qed.
Lemma sublist_where_none {X} (P : X -> Prop) l sel : sublist_where P l sel -> (forall a, In a l -> ~ P a) -> sel = [].
Proof. induction 1 as [|a l sel Pa S IH|a l sel Na S IH]; intros N; auto; [exfalso; apply (N a); cbn; auto|apply IH; intros b J; apply N; cbn; auto]. Qed.
Lemma sublist_where_iff {X} (P Q : X -> Prop) l sel : (forall a, In a l -> P a <-> Q a) -> sublist_where P l sel -> sublist_where Q l sel.
Proof.
  intros E S. induction S as [|a l sel Pa S IH|a l sel Na S IH]; constructor; try (apply IH; intros b J; apply E; cbn; auto).
  - apply E; cbn; auto. - intros Q'. apply Na, E; cbn; auto.
Qed.
Lemma unexamined_silent c k s name x vs : named k s name -> name <> $"long line" -> well_formed x ->
  (forall t, In t (cx_tops x) -> ~ inspected (cx_lang x) (sh_supportedLanguages s) (sh_supportedCUDA s) (fst t)) ->
  alone c k x vs -> vs = [].
Proof.
  intros N Nl W Ni A. destruct (named_row _ _ _ N) as [b Hb].
  assert (B : b <> BLines).
  { intros ->. destruct N as [_ E].
    assert (F : forallb (fun sb => match snd sb with BLines => str_eqb (sh_name (fst sb)) $"long line" | _ => true end) shipped_behaviours = true) by (vm_compute; reflexivity).
    rewrite forallb_forall in F. specialize (F _ (nth_error_In _ _ Hb)). cbn [fst snd] in F. apply str_eqb_eq in F. congruence. }
  destruct (proj1 (c113_findings_exactly c k x s b vs W Hb B) A) as (decls & rs & kept & (sel & S & ->) & F & R & ->).
  apply sublist_where_none in S; auto. subst sel. cbn [map] in F.
  assert (rs = []) as ->.
  { inversion F; subst; auto.
    - inversion H; reflexivity.
    - apply nth_error_In in Hb. unfold shipped_behaviours in Hb.
      repeat (destruct Hb as [Hb|Hb]; [try discriminate Hb; injection Hb as <- <-; apply setUp_val in H0 as (T & c' & _ & ->); reflexivity|]). destruct Hb.
    - apply nth_error_In in Hb. unfold shipped_behaviours in Hb.
      repeat (destruct Hb as [Hb|Hb]; [try discriminate Hb; injection Hb as <- <-; reflexivity|]). destruct Hb.
    - cbn in H. now injection H as <-. }
  inversion R. reflexivity.
Qed.
(** A rule says nothing about a unit in a language it is not meant for. *)
Theorem c119_silent_in_other_languages : forall c k s name x l vs, named k s name -> name <> $"long line" -> well_formed x ->
  lo_cuda (cx_lang x) = false -> language_of (cx_lang x) l -> ~ meant_for name l -> alone c k x vs -> vs = [].
Proof.
  intros c k s name x l vs N Nl W Cu L Nm A. eapply unexamined_silent; eauto. intros t It H.
  apply (c119_examined k s name x t N It) in H as (_ & H & _). destruct (H Cu) as (_ & l' & L' & M).
  now rewrite (c45_language_unique _ _ _ L L') in Nm.
Qed.
(** In one it is meant for it looks at every top-level declaration of the main file. *)
Theorem c119_looks_in_its_languages : forall k s name x l decls, named k s name ->
  lo_cuda (cx_lang x) = false -> language_of (cx_lang x) l -> meant_for name l -> ~ kernel_only name ->
  (examined x s decls <-> exists sel, sublist_where (fun t => in_main (fst t)) (cx_tops x) sel /\ decls = map snd sel).
Proof.
  intros k s name x l decls N Cu L M Nk. unfold examined.
  assert (E : forall t, In t (cx_tops x) -> inspected (cx_lang x) (sh_supportedLanguages s) (sh_supportedCUDA s) (fst t) <-> in_main (fst t)).
  { intros t It. rewrite (c119_examined k s name x t N It). split; [tauto|]. intros Im. split; auto. split; [|congruence]. eauto. }
  split; intros (sel & S & ->); exists sel; (split; [|reflexivity]); (eapply sublist_where_iff; [|exact S]); intros t It; rewrite (E t It); tauto.
Qed.
(** Outside CUDA units the kernel rule is silent. *)
Theorem c119_kernel_rule_outside_cuda : forall c k s x vs, named k s $"branch divergence" -> well_formed x ->
  lo_cuda (cx_lang x) = false -> alone c k x vs -> vs = [].
Proof.
  intros c k s x vs N W Cu A. eapply unexamined_silent; eauto; [discriminate|]. intros t It H.
  apply (c119_examined k s _ x t N It) in H as (_ & H & _). destruct (H Cu) as [H' _]. now apply H'.
Qed.
(** Finding: C before C99 is in no language, so every rule but one is silent about it. *)
Theorem c119_every_language_is_covered_refuted : exists lo, lo_cuda lo = false /\
  forall x, cx_lang x = lo -> well_formed x -> forall c k s name vs, named k s name -> name <> $"long line" -> alone c k x vs -> vs = [].
Proof.
  exists {| lo_objc := false; lo_cxx := false; lo_c99 := false; lo_cuda := false |}. split; [reflexivity|].
  intros x E W c k s name vs N Nl A. eapply unexamined_silent; eauto. intros t It H.
  apply (c119_examined k s name x t N It) in H as (_ & H & _). rewrite E in H. cbn in H.
  destruct (H eq_refl) as (_ & l & L & _). destruct l; cbn in L; intuition discriminate.
Qed.
(** Finding: Objective-C++ is Objective-C only; the rules for C++ are silent about it. *)
Theorem c119_cxx_rules_skip_objcxx : forall c k s name x vs, named k s name -> In name (cxx_rules ++ c_cxx_rules) -> well_formed x ->
  lo_cuda (cx_lang x) = false -> lo_objc (cx_lang x) = true -> alone c k x vs -> vs = [].
Proof.
  intros c k s name x vs N I W Cu O A. eapply (c119_silent_in_other_languages c k s name x ObjC); eauto.
  - intros ->. vm_compute in I. intuition discriminate.
  - intros (_ & H2 & H3). apply in_app_or in I as [I|I]; [discriminate (H2 I)|]. now apply (H3 I).
Qed.
Example c119_case : language_of (cx_lang ex_y) Cxx /\ lo_cuda (cx_lang ex_y) = false /\ well_formed ex_y
  /\ named 10 sh_GotoStatement $"goto statement" /\ meant_for $"goto statement" Cxx /\ ~ kernel_only $"goto statement"
  /\ (exists v, alone cfg_fresh 10 ex_y [v])
  /\ named 2 sh_BrokenNilCheck $"broken nil check" /\ ~ meant_for $"broken nil check" Cxx /\ alone cfg_fresh 2 ex_y []
  /\ In $"destructor of virtual class" (cxx_rules ++ c_cxx_rules).
Proof.
  split; [vm_compute; auto|]. split; [reflexivity|]. split; [vm_compute; repeat constructor; auto|].
  split; [split; reflexivity|]. split; [apply meantb_iff; vm_compute; reflexivity|]. split; [unfold kernel_only; discriminate|].
  split; [eexists; apply alone_iff; do 2 eexists; split; vm_compute; reflexivity|].
  split; [split; reflexivity|]. split; [intros H; apply meantb_iff in H; vm_compute in H; discriminate|].
  split; [apply alone_iff; do 2 eexists; split; vm_compute; reflexivity|]. apply memb_In. vm_compute. reflexivity.
Qed.
Print Assumptions c119_examined.
Print Assumptions c119_silent_in_other_languages.
Print Assumptions c119_looks_in_its_languages.
Print Assumptions c119_kernel_rule_outside_cuda.
Print Assumptions c119_every_language_is_covered_refuted.
Print Assumptions c119_cxx_rules_skip_objcxx.
