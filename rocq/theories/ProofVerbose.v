(** * Proofs for the progress log *)
From Verif Require Import Base BaseFacts ModelResults ModelConfig ModelFilter ModelOptions ModelMain ModelDriver ModelVerbose
  SpecFilter SpecDriver SpecVerbose ProofFilter ProofConfig ProofDriver.
From Coq Require Import Lia.
Local Arguments lit : simpl never.

Section Log.
  Context {CTX ST : Type}.
  Variable tc : toolchain CTX.
  Variable takeoff : nat -> CTX -> ST -> outcome (list violation * ST).
  Variable rules : list nat.
  Variable path : CTX -> str.

  (** Dropping the text gives back the functions of ModelDriver. *)
  Lemma cc_v cmds : forall c cwd acc, snd (constructCompilers_v tc cmds c cwd acc) = constructCompilers tc cmds c cwd acc.
  Proof.
    induction cmds as [|fc cmds IH]; intros c cwd acc; cbn [constructCompilers_v constructCompilers]; auto.
    destruct (compile_one tc false fc c cwd) as [[c1 cwd1] [fr| |]]; auto. rewrite <- IH.
    now destruct (constructCompilers_v _ _ _ _ _).
  Qed.
  Lemma an_v ctxs : forall c st, snd (analyze_v takeoff rules path ctxs c st) = analyze takeoff rules ctxs c st.
  Proof.
    induction ctxs as [|x ctxs IH]; intros c st; cbn [analyze_v analyze]; auto.
    destruct (rules_loop takeoff rules x [] st) as [[s st1]| |]; auto. rewrite <- IH.
    now destruct (analyze_v _ _ _ _ _ _).
  Qed.
  Lemma inv_v cmds c cwd st : snd (invoke_v tc takeoff rules path cmds c cwd st) = invoke tc takeoff rules cmds c cwd st.
  Proof.
    unfold invoke_v, invoke. rewrite <- cc_v. destruct (constructCompilers_v _ _ _ _ _) as [t [[c1 cwd1] [ctxs| |]]]; auto. cbn [snd].
    rewrite <- an_v. now destruct (analyze_v _ _ _ _ _ _) as [t2 [c2 o]].
  Qed.
  Lemma each_v cmds : forall c cwd st, snd (invoke_each_v tc takeoff rules path cmds c cwd st) = invoke_each tc takeoff rules cmds c cwd st.
  Proof.
    induction cmds as [|fc cmds IH]; intros c cwd st; cbn [invoke_each_v invoke_each]; auto.
    rewrite <- inv_v. destruct (invoke_v _ _ _ _ _ _ _ _) as [t [[c1 cwd1] [st1| |]]]; auto. cbn [snd].
    rewrite <- IH. now destruct (invoke_each_v _ _ _ _ _ _ _ _).
  Qed.
  Lemma csa_v cmds : forall c cwd, snd (invokeClangStaticAnalyzer_v tc cmds c cwd) = invokeClangStaticAnalyzer tc cmds c cwd.
  Proof.
    induction cmds as [|fc cmds IH]; intros c cwd; cbn [invokeClangStaticAnalyzer_v invokeClangStaticAnalyzer]; auto.
    destruct (compile_one tc true fc c cwd) as [[c1 cwd1] [fr| |]]; auto. rewrite <- IH.
    now destruct (invokeClangStaticAnalyzer_v _ _ _ _).
  Qed.
  Lemma run_v_run g k sources c cwd st :
    snd (run_v tc takeoff rules path g k sources c cwd st) = run tc takeoff rules g k sources c cwd st.
  Proof.
    unfold run_v, run. set (cmds := fst _). 
    assert (E : snd (if g then invoke_v tc takeoff rules path cmds c cwd st else invoke_each_v tc takeoff rules path cmds c cwd st)
                = if g then invoke tc takeoff rules cmds c cwd st else invoke_each tc takeoff rules cmds c cwd st)
      by (destruct g; [apply inv_v|apply each_v]).
    rewrite <- E. destruct (if g then invoke_v _ _ _ _ _ _ _ _ else _) as [t [[c1 cwd1] [st1| |]]]; auto. cbn [snd].
    destruct k; auto. rewrite <- csa_v. now destruct (invokeClangStaticAnalyzer_v _ _ _ _) as [t2 [[c2 cwd2] [u| |]]].
  Qed.

  Lemma c_str_id s : no_nul s -> c_str s = s.
  Proof.
    intros H. rewrite <- (app_nil_r s) at 1. rewrite c_str_app_nonnul; [cbn [c_str]; apply app_nil_r|].
    eapply Forall_impl; [|exact H]. intros a E. now apply Nat.eqb_neq.
  Qed.
  Lemma compile_one_stuck checker fc c cwd c1 cwd1 o : compile_one tc checker fc c cwd = (c1, cwd1, o) ->
    (forall fr, o <> Val fr) -> cannot_compile tc checker cwd fc.
  Proof.
    intros E N cwd' fr U. apply (unit_compiles_iff _ _ _ _ _ _ c) in U. rewrite U in E. injection E as _ _ <-. now apply (N fr).
  Qed.
  Lemma compile_one_ok checker fc c cwd c1 cwd1 fr : compile_one tc checker fc c cwd = (c1, cwd1, Val fr) ->
    unit_compiles tc checker cwd fc cwd1 fr.
  Proof.
    intros E. pose proof (compile_one_val _ _ _ _ _ _ _ _ E). subst c1. now apply (unit_compiles_iff _ _ _ _ _ _ c).
  Qed.
  Lemma good_or_bad (fr : frontend_result CTX) :
    (exists ctx, good fr ctx /\ fr_context fr = Some ctx /\ hasErrorOccurred (fr_diagnostics fr) = false)
    \/ (bad fr /\ (fr_context fr = None \/ hasErrorOccurred (fr_diagnostics fr) = true)).
  Proof.
    destruct (fr_context fr) as [ctx|] eqn:E.
    - destruct (hasErrorOccurred (fr_diagnostics fr)) eqn:H.
      + right. split; auto. intros x [_ G]. unfold hasErrorOccurred in H. apply existsb_exists in H as (d & I & L).
        apply (G d I). now apply errorb_iff.
      + left. exists ctx. repeat split; auto. intros d I Er. apply errorb_iff in Er.
        unfold hasErrorOccurred in H. assert (T : existsb errorb (fr_diagnostics fr) = true) by (apply existsb_exists; eauto).
        unfold errorb in T. congruence.
    - right. split; auto. intros x [G _]. congruence.
  Qed.
  Lemma rules_raise ctx st m : rules_loop takeoff rules ctx [] st = Exc m -> raises takeoff rules ctx st.
  Proof.
    unfold raises. generalize (@nil violation). revert st. induction rules as [|a rs IH]; intros st s; cbn [rules_loop]; [discriminate|].
    destruct (takeoff a ctx st) as [[rep st1]|what|] eqn:E; cbn [obind]; try discriminate.
    - intros H. destruct (IH _ _ H) as (d & b & r & pr & s2 & w & -> & U & T).
      exists (a :: d), b, r, (rep :: pr), s2, w. repeat split; auto. econstructor; eauto.
    - intros _. exists [], a, rs, [], st, what. repeat split; auto. constructor.
  Qed.

  Definition tail (e : option stopped_while) : str := match e with Some s => unfinished s | None => [] end.
  Definition tail2 {A} (e : stopped_while + A) : str := match e with inl s => unfinished s | inr _ => [] end.
  Lemma said_app a b : said (a ++ b) = said a ++ said b.
  Proof. unfold said. now rewrite map_app, concat_app. Qed.
  Lemma said_cons a b : said (a :: b) = line a ++ said b.
  Proof. reflexivity. Qed.

  Definition names (cmds : list (str * command)) : Prop := Forall (fun fc => no_nul (fst fc)) cmds.

  Lemma cc_story cmds : forall c cwd acc log c' cwd' o, names cmds ->
    constructCompilers_v tc cmds c cwd acc = (log, (c', cwd', o)) -> o <> UB ->
    exists l e, all_tried tc false Compiles WhileCompiling cwd cmds l e /\ log = said l ++ tail2 e
      /\ match e with inl _ => exists m, o = Exc m | inr (cwd2, ctxs) => cwd' = cwd2 /\ o = Val (acc ++ ctxs) end.
  Proof.
    induction cmds as [|fc cmds IH]; intros c cwd acc log c' cwd' o Hn; cbn [constructCompilers_v].
    - intros [= <- <- <- <-] _. exists [], (inr (cwd, [])). repeat split; [constructor|]. now rewrite app_nil_r.
    - inversion Hn as [|? ? H1 H2]; subst. destruct (compile_one tc false fc c cwd) as [[c1 cwd1] [fr| m|]] eqn:E.
      + destruct (constructCompilers_v tc cmds c1 cwd1 _) as [more [[c2 cwd2] o2]] eqn:R. intros [= <- <- <- <-] No.
        apply IH in R as (l & e & T & -> & X); auto. apply compile_one_ok in E.
        unfold log_compiling, log_compiled. rewrite (c_str_id _ H1).
        destruct (good_or_bad fr) as [(ctx & G & Ec & Eh)|[B Eb]].
        * rewrite Ec, Eh in *. cbn [negb andb].
          exists (Compiles (fst fc) true :: l). destruct e as [s|[cwd3 ctxs]].
          -- exists (inl s). repeat split; auto; [eapply at_good_stuck; eauto|]. rewrite said_cons. cbn [line]. now rewrite <- !app_assoc.
          -- exists (inr (cwd3, ctx :: ctxs)). destruct X as [-> ->]. repeat split; auto; [eapply at_good; eauto| |].
             ++ rewrite said_cons. cbn [line]. now rewrite <- !app_assoc.
             ++ cbn [negb]. now rewrite <- app_assoc.
        * assert (Ec : negb (hasErrorOccurred (fr_diagnostics fr)) && match fr_context fr with Some _ => true | None => false end = false).
          { destruct Eb as [-> | ->]; [apply andb_false_r|reflexivity]. }
          rewrite Ec. exists (Compiles (fst fc) false :: l), e. repeat split; [eapply at_bad; eauto| |].
          -- rewrite said_cons. cbn [line]. now rewrite <- !app_assoc.
          -- destruct e as [s|[cwd3 ctxs]]; auto. destruct X as [-> ->]. split; auto. f_equal. f_equal.
             destruct Eb as [-> | Eb]; auto. destruct (fr_context fr); auto. now rewrite Eb.
      + intros [= <- <- <- <-] _. exists [], (inl (WhileCompiling (fst fc))). repeat split; eauto.
        * apply at_stuck. eapply compile_one_stuck; eauto. discriminate.
        * cbn [tail2 unfinished said map concat app]. unfold log_compiling. now rewrite (c_str_id _ H1).
      + intros [= <- <- <- <-] N. now destruct N.
  Qed.
  Lemma csa_story cmds : forall c cwd log c' cwd' o, names cmds ->
    invokeClangStaticAnalyzer_v tc cmds c cwd = (log, (c', cwd', o)) -> o <> UB ->
    exists l e, all_tried tc true Checks WhileChecking cwd cmds l e /\ log = said l ++ tail2 e
      /\ match e with inl _ => exists m, o = Exc m | inr _ => o = Val tt end.
  Proof.
    induction cmds as [|fc cmds IH]; intros c cwd log c' cwd' o Hn; cbn [invokeClangStaticAnalyzer_v].
    - intros [= <- <- <- <-] _. exists [], (inr (cwd, [])). repeat split. constructor.
    - inversion Hn as [|? ? H1 H2]; subst. destruct (compile_one tc true fc c cwd) as [[c1 cwd1] [fr| m|]] eqn:E.
      + destruct (invokeClangStaticAnalyzer_v tc cmds c1 cwd1) as [more [[c2 cwd2] o2]] eqn:R. intros [= <- <- <- <-] No.
        apply IH in R as (l & e & T & -> & X); auto. apply compile_one_ok in E.
        unfold log_compiled. rewrite (c_str_id _ H1).
        destruct (good_or_bad fr) as [(ctx & G & Ec & Eh)|[B Eb]].
        * rewrite Ec, Eh in *. cbn [negb andb].
          exists (Checks (fst fc) true :: l). destruct e as [s|[cwd3 ctxs]].
          -- exists (inl s). repeat split; auto; [eapply at_good_stuck; eauto|]. rewrite said_cons. cbn [line]. now rewrite <- !app_assoc.
          -- exists (inr (cwd3, ctx :: ctxs)). repeat split; auto; [eapply at_good; eauto|].
             rewrite said_cons. cbn [line]. now rewrite <- !app_assoc.
        * assert (Ec : negb (hasErrorOccurred (fr_diagnostics fr)) && match fr_context fr with Some _ => true | None => false end = false).
          { destruct Eb as [-> | ->]; [apply andb_false_r|reflexivity]. }
          rewrite Ec. exists (Checks (fst fc) false :: l), e. repeat split; auto; [eapply at_bad; eauto|].
          rewrite said_cons. cbn [line]. now rewrite <- !app_assoc.
      + intros [= <- <- <- <-] _. exists [], (inl (WhileChecking (fst fc))). repeat split; eauto.
        * apply at_stuck. eapply compile_one_stuck; eauto. discriminate.
        * cbn [tail2 unfinished said map concat app]. now rewrite (c_str_id _ H1).
      + intros [= <- <- <- <-] N. now destruct N.
  Qed.
  Lemma an_story ctxs : forall c st log c' o, Forall (fun x => no_nul (path x)) ctxs ->
    analyze_v takeoff rules path ctxs c st = (log, (c', o)) -> o <> UB ->
    exists l e, all_analyzed takeoff rules path st ctxs l e /\ log = said l ++ tail e
      /\ match e with Some _ => exists m, o = Exc m | None => exists all st', o = Val st' /\ units_run takeoff rules ctxs st all st' end.
  Proof.
    induction ctxs as [|x ctxs IH]; intros c st log c' o Hn; cbn [analyze_v].
    - intros [= <- <- <-] _. exists [], None. repeat split; [constructor|]. exists [], st. split; auto. constructor.
    - inversion Hn as [|? ? H1 H2]; subst. rewrite (c_str_id _ H1).
      destruct (rules_loop takeoff rules x [] st) as [[s st1]| m|] eqn:E.
      + destruct (analyze_v _ _ _ ctxs _ _) as [more [c2 o2]] eqn:R. intros [= <- <- <-] No.
        apply IH in R as (l & e & T & -> & X); auto.
        destruct (rules_loop_val _ _ _ _ _ _ _ E) as (pr & U).
        exists (Analyzes (path x) :: l), e. repeat split; [econstructor; eauto| |].
        * rewrite said_cons. cbn [line]. now rewrite <- !app_assoc.
        * destruct e; auto. destruct X as (all & st' & -> & U'). exists (pr :: all), st'. split; auto. econstructor; eauto.
      + intros [= <- <- <-] _. exists [], (Some (WhileAnalyzing (path x))). repeat split; eauto.
        apply aa_raised. eapply rules_raise; eauto.
      + intros [= <- <- <-] N. now destruct N.
  Qed.

  (** Units whose name is said. *)
  Definition unit_names cmds : Prop :=
    forall fc cwd cwd' fr ctx, In fc cmds -> unit_compiles tc false cwd fc cwd' fr -> good fr ctx -> no_nul (path ctx).
  Lemma tried_names checker mk wh cwd cmds l e : checker = false -> unit_names cmds -> all_tried tc checker mk wh cwd cmds l e ->
    match e with inr (_, ctxs) => Forall (fun x => no_nul (path x)) ctxs | _ => True end.
  Proof.
    intros -> Hn T. induction T; auto.
    - destruct e as [|[? ?]]; auto; apply IHT; intros fc0 ? ? ? ? I; apply Hn; now right.
    - constructor; [|apply IHT; intros fc0 ? ? ? ? I; apply Hn; now right]. eapply Hn; [left; reflexivity|eauto|eauto].
  Qed.

  Lemma inv_story cmds c cwd st log c' cwd' o : names cmds -> unit_names cmds ->
    invoke_v tc takeoff rules path cmds c cwd st = (log, (c', cwd', o)) -> o <> UB ->
    exists l e, rules_story tc takeoff rules path true cwd st cmds l e /\ log = said l ++ tail2 e
      /\ match e with inl _ => exists m, o = Exc m | inr cwd2 => cwd' = cwd2 /\ exists st', o = Val st' end.
  Proof.
    intros Hn Hu. unfold invoke_v. destruct (constructCompilers_v tc cmds c cwd []) as [t [[c1 cwd1] o1]] eqn:E.
    destruct o1 as [ctxs|m|].
    - apply cc_story in E as (l & e & T & -> & X); auto; [|discriminate]. destruct e as [s|[cwd2 ctxs']]; [destruct X as [? [=]]|].
      destruct X as [<- [= ->]]. cbn [app]. pose proof (tried_names _ _ _ _ _ _ _ eq_refl Hu T) as Hp. cbn in Hp.
      destruct (analyze_v takeoff rules path ctxs' c1 st) as [more [c2 o2]] eqn:R. intros [= <- <- <- <-] No.
      apply an_story in R as (l2 & e2 & T2 & -> & X2); auto. cbn [tail2]. rewrite app_nil_r.
      destruct e2 as [s|].
      + exists (l ++ l2), (inl s). repeat split; [eapply rs_all_raised; eauto| |auto]. now rewrite said_app, <- app_assoc.
      + destruct X2 as (all & st' & -> & _). exists (l ++ l2), (inr cwd1). repeat split; [eapply rs_all; eauto| |eauto]. now rewrite said_app, <- app_assoc.
    - apply cc_story in E as (l & e & T & -> & X); auto; [|discriminate]. destruct e as [s|[cwd2 ctxs']]; [|destruct X; discriminate].
      intros [= <- <- <- <-] _. exists l, (inl s). repeat split; eauto. now constructor.
    - intros [= <- <- <- <-] N. now destruct N.
  Qed.
  Lemma single_story fc cwd st l e : rules_story tc takeoff rules path true cwd st [fc] l e ->
    forall cmds, match e with
    | inl s => file_by_file tc takeoff rules path cwd st (fc :: cmds) l (inl s)
    | inr cwd1 => exists fr, unit_compiles tc false cwd fc cwd1 fr
        /\ ((bad fr /\ l = [Compiles (fst fc) false])
            \/ exists ctx pr st1, good fr ctx /\ unit_run takeoff rules ctx st pr st1 /\ l = [Compiles (fst fc) true; Analyzes (path ctx)])
    end.
  Proof.
    intros H cmds. inversion H as [|? ? ? ? s T|? ? ? l1 cwd1 ctxs l2 T A|? ? ? l1 cwd1 ctxs l2 s T A]; subst.
    - inversion T as [|? ? ? ? ? ? ? ? ? R| | ? ? ? ? ? ? ? ? ? ? R|]; subst.
      + inversion R.
      + inversion R.
      + now apply ff_stuck.
    - inversion T as [|? ? ? fr ? ? ? U B R|? ? ? fr ctx ? ? ? ? U G R| |]; subst.
      + inversion R; subst. inversion A; subst. exists fr. auto.
      + inversion R; subst. inversion A as [|? ? pr st1 ? ? ? U2 A2|]; subst. inversion A2; subst.
        exists fr. split; auto. right. exists ctx, pr, st1. auto.
    - inversion T as [|? ? ? fr ? ? ? U B R|? ? ? fr ctx ? ? ? ? U G R| |]; subst.
      + inversion R; subst. inversion A.
      + inversion R; subst. inversion A as [|? ? pr st1 ? ? ? U2 A2|]; subst; [inversion A2|].
        cbn [app]. eapply ff_raised; eauto.
  Qed.
  Lemma each_story cmds : forall c cwd st log c' cwd' o, names cmds -> unit_names cmds ->
    invoke_each_v tc takeoff rules path cmds c cwd st = (log, (c', cwd', o)) -> o <> UB ->
    exists l e, file_by_file tc takeoff rules path cwd st cmds l e /\ log = said l ++ tail2 e
      /\ match e with inl _ => exists m, o = Exc m | inr cwd2 => cwd' = cwd2 /\ exists st', o = Val st' end.
  Proof.
    induction cmds as [|fc cmds IH]; intros c cwd st log c' cwd' o Hn Hu; cbn [invoke_each_v].
    - intros [= <- <- <- <-] _. exists [], (inr cwd). repeat split; eauto. constructor.
    - destruct (invoke_v tc takeoff rules path [fc] c cwd st) as [t [[c1 cwd1] o1]] eqn:E.
      assert (Hn1 : names [fc]) by (inversion Hn; subst; repeat constructor; auto).
      assert (Hu1 : unit_names [fc]) by (intros f ? ? ? ? [<-|[]]; apply Hu; now left).
      assert (Hn2 : names cmds) by now inversion Hn.
      assert (Hu2 : unit_names cmds) by (intros f ? ? ? ? I; apply Hu; now right).
      destruct o1 as [st1|m|].
      + pose proof E as E0. apply inv_story in E as (l & e & T & -> & X); auto; [|discriminate].
        destruct e as [s|cwd2]; [destruct X as [? [=]]|]. destruct X as [<- _].
        destruct (invoke_each_v tc takeoff rules path cmds c1 cwd1 st1) as [more [[c2 cwd2] o2]] eqn:R. intros [= <- <- <- <-] No.
        apply IH in R as (l2 & e2 & T2 & -> & X2); auto. cbn [tail2]. rewrite app_nil_r, app_assoc, <- said_app.
        exists (l ++ l2), e2. split; [|auto].
        destruct (single_story _ _ _ _ _ T cmds) as (fr & U & [[B ->]|(ctx & pr & st1' & G & R & ->)]).
        * cbn [app]. eapply ff_bad; eauto.
          assert (st1 = st); [|now subst].
          apply (f_equal snd) in E0. rewrite inv_v in E0. cbn [snd] in E0. apply invoke_units_inv in E0 as (frs & all & Uc & Ur).
          inversion Uc as [|? ? cw fr' ? frs' ? U' Uc']; subst. inversion Uc'; subst.
          assert (fr' = fr) as ->.
          { apply (unit_compiles_iff _ _ _ _ _ _ c_empty) in U. apply (unit_compiles_iff _ _ _ _ _ _ c_empty) in U'. rewrite U in U'. now injection U'. }
          cbn [flat_map] in Ur. rewrite app_nil_r in Ur. destruct (goodb_shape fr) as [[x Ex]|Ex]; rewrite Ex in Ur.
          -- exfalso. apply (B x). apply goodb_in. rewrite Ex. now left.
          -- now inversion Ur.
        * cbn [app]. eapply ff_good; eauto.
          assert (st1 = st1'); [|now subst].
          apply (f_equal snd) in E0. rewrite inv_v in E0. cbn [snd] in E0. apply invoke_units_inv in E0 as (frs & all & Uc & Ur).
          inversion Uc as [|? ? cw fr' ? frs' ? U' Uc']; subst. inversion Uc'; subst.
          assert (fr' = fr) as ->.
          { apply (unit_compiles_iff _ _ _ _ _ _ c_empty) in U. apply (unit_compiles_iff _ _ _ _ _ _ c_empty) in U'. rewrite U in U'. now injection U'. }
          cbn [flat_map] in Ur. rewrite app_nil_r in Ur. apply goodb_in in G. destruct (goodb_shape fr) as [[x Ex]|Ex]; rewrite Ex in Ur, G; [|destruct G].
          destruct G as [<-|[]]. inversion Ur as [|? ? ? ? st2 ? ? R1 R2]; subst. inversion R2; subst.
          apply (rules_loop_run _ _ _ _ _ _ []) in R. apply (rules_loop_run _ _ _ _ _ _ []) in R1. rewrite R in R1. now injection R1.
      + apply inv_story in E as (l & e & T & -> & X); auto; [|discriminate]. destruct e as [s|cwd2]; [|destruct X as [_ [? [=]]]].
        intros [= <- <- <- <-] _. exists l, (inl s). repeat split; eauto. exact (single_story _ _ _ _ _ T cmds).
      + intros [= <- <- <- <-] N. now destruct N.
  Qed.
  Lemma run_story g k sources c cwd st log c' o : names (commands_of tc sources) -> unit_names (commands_of tc sources) ->
    run_v tc takeoff rules path g k sources c cwd st = (log, (c', o)) -> o <> UB ->
    exists l e, story tc takeoff rules path g k cwd st (commands_of tc sources) l e /\ log = said l ++ tail e
      /\ (e = None <-> exists st', o = Val st').
  Proof.
    intros Hn Hu. unfold run_v, constructCompileCommands. rewrite commands_loop_eq. cbn [fst app]. fold (commands_of tc sources).
    destruct (if g then _ else _) as [t [[c1 cwd1] o1]] eqn:E.
    assert (X : o1 <> UB -> exists l e, rules_story tc takeoff rules path g cwd st (commands_of tc sources) l e /\ t = said l ++ tail2 e
      /\ match e with inl _ => exists m, o1 = Exc m | inr cwd2 => cwd1 = cwd2 /\ exists st', o1 = Val st' end).
    { intros No. destruct g; [eapply inv_story; eauto|]. eapply each_story in E as (l & e & T & ? & ?); eauto. exists l, e. split; auto. now constructor. }
    destruct o1 as [st1|m|].
    - destruct X as (l & e & T & -> & X); [discriminate|]. destruct e as [s|cwd2]; [destruct X as [? [=]]|]. destruct X as [<- _]. cbn [tail2]. rewrite app_nil_r.
      destruct k.
      + destruct (invokeClangStaticAnalyzer_v tc (commands_of tc sources) c1 cwd1) as [more [[c2 cwd2] o2]] eqn:R.
        intros [= <- Q] No. assert (o2 <> UB) by (intros ->; injection Q as _ <-; now apply No).
        apply csa_story in R as (l2 & e2 & T2 & -> & X2); auto. rewrite app_assoc, <- said_app. exists (l ++ l2).
        destruct e2 as [s|p].
        * destruct X2 as [m ->]. injection Q as _ <-. exists (Some s). repeat split; [eapply st_check_stuck; eauto|discriminate|]. intros [? [=]].
        * subst o2. injection Q as _ <-. exists None. repeat split; [eapply st_checked; eauto|eauto].
      + intros [= <- <- <-] _. exists l, None. repeat split; [eapply st_rules_only; eauto| |eauto]. now rewrite app_nil_r.
    - destruct X as (l & e & T & -> & X); [discriminate|]. destruct e as [s|cwd2]; [|destruct X as [_ [? [=]]]].
      intros [= <- <- <-] _. exists l, (Some s). repeat split; [now apply st_stopped|discriminate|]. intros [? [=]].
    - intros [= <- <- <-] N. now destruct N.
  Qed.

  (** The story of a run is unique. *)
  Lemma unit_compiles_det checker cwd fc cwd1 fr1 cwd2 fr2 : unit_compiles tc checker cwd fc cwd1 fr1 ->
    unit_compiles tc checker cwd fc cwd2 fr2 -> cwd1 = cwd2 /\ fr1 = fr2.
  Proof.
    intros U V. apply (unit_compiles_iff _ _ _ _ _ _ c_empty) in U. apply (unit_compiles_iff _ _ _ _ _ _ c_empty) in V.
    rewrite U in V. now injection V.
  Qed.
End Log.

Lemma interleaved_length a b out : interleaved a b out -> length out = length a + length b.
Proof. induction 1; cbn; lia. Qed.
Lemma interleaved_left a out : interleaved a [] out -> out = a.
Proof. remember [] as b eqn:E. induction 1; try discriminate; auto. now rewrite IHinterleaved. Qed.
Lemma interleaved_all_left a : interleaved a [] a.
Proof. induction a; now constructor. Qed.
Lemma interleaved_then a b : interleaved a b (a ++ b) /\ interleaved a b (b ++ a).
Proof.
  split.
  - induction a; cbn; [induction b; now constructor|now constructor].
  - induction b; cbn; [apply interleaved_all_left|now constructor].
Qed.
