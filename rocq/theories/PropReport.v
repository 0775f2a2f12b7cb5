(** * C135: what the report of a run says, in terms of single rules on single files *)
From Verif Require Import Base BaseFacts ModelResults ModelConfig ModelFilter ModelOptions ModelMain ModelDriver ModelReporters
  ModelSource ModelAST ModelRules ModelRuleTable ModelProgram ModelVerbose SpecResults SpecConfig SpecFilter SpecMain SpecDriver SpecJSON SpecXML SpecReporters
  SpecAST SpecProgram SpecVerbose SpecMessages ProofResults ProofFilter ProofMain ProofReporters ProofDriver ProofProgram ProofVerbose ProofMessages
  PropAST PropMain PropDriver PropReporters PropProgram PropVerbose PropMessages.
From Coq Require Import Lia Permutation.
Local Arguments lit : simpl never.

(** A run that reaches its verdict: it ends with [n], has the options [s], applies the rules
    [sel] to the units [xs] and leaves the trace [ev]. *)
Definition finished (w : world) (i : inputs) (s : ostate) (sel : list nat) (xs : list tuctx) (n : Z) (ev : list event) : Prop :=
  main (program w i) = (ev, Exit n) /\ (n = 0 \/ n = 5 \/ n = 6)%Z /\ options_are (program w i) s
  /\ (exists rules, rules_loaded (program w i) s rules /\ NoDup rules
        /\ filteredRules shipped_env (os_filter s) (registry rules) = Val sel)
  /\ compiled i xs /\ separate xs.
(** Everything found by the rules [sel] on the units [xs], each rule run alone on each unit
    alone: unit after unit, rule after rule. *)
Definition found (c : cfg) (sel : list nat) (xs : list tuctx) (l : list violation) : Prop :=
  exists table, each_alone c sel xs table /\ l = concat (concat table).
(** What is shown of it: everything, or each violation once. *)
Definition to_show (dup : bool) (l shown : list violation) : Prop := if dup then shown = l else one_copy_each l shown.

Lemma Forall2_len {A B} (R : A -> B -> Prop) l r : Forall2 R l r -> length l = length r.
Proof. induction 1; cbn; congruence. Qed.
Lemma concat_concat {A} (t : list (list (list A))) : concat (concat t) = concat (map (@concat A) t).
Proof. induction t as [|r t IH]; [reflexivity|]. cbn [concat map]. now rewrite concat_app, IH. Qed.
Lemma finished_inv w i s sel xs n ev : finished w i s sel xs n ev ->
  exists rules r c l text e, rules_loaded (program w i) s rules /\ reporter_found (program w i) s r
    /\ analysed (program w i) s rules c /\ driver_of i s sel = (c, Val tt)
    /\ found (os_cfg s) sel xs l /\ concat (c_collection c) = l /\ length (c_collection c) = length xs
    /\ reported (program w i) s r c text /\ report_event (program w i) s text e /\ In e ev.
Proof.
  intros (M & N & O & (rules & L & D & F) & X & Sp). destruct (main_exit _ _ _ M) as [_ T].
  destruct T as [|n0 mm Z|sel0 m|sel0 pre m _|n0 sel0 s0 rules0 r c text e post _ O' L' R A Fr Re Ev _]; [lia|lia|lia|lia|].
  pose proof (options_are_det _ _ _ O O'). subst s0. pose proof (rules_loaded_det _ _ _ _ L L'). subst rules0.
  destruct (program_analysed _ _ _ _ _ O A) as (sel' & F' & Dr). rewrite F in F'. injection F' as <-.
  assert (Ds : NoDup sel). { rewrite filteredRules_eq in F. injection F as <-. now apply NoDup_filter. }
  destruct (c112_each_rule_on_its_own i s sel c xs Dr X Ds Sp) as (table & T & Ec).
  exists rules, r, c, (concat (concat table)), text, e. split; [exact L|]. split; [exact R|]. split; [exact A|]. split; [exact Dr|].
  split; [exists table; auto|]. split; [rewrite Ec, concat_concat; reflexivity|]. split.
  - rewrite Ec, map_length. symmetry. exact (Forall2_len _ _ _ T).
  - split; [exact Re|]. split; [exact Ev|]. apply in_app_iff. right. right. now left.
Qed.

(** The report is made of exactly what the rules find alone. *)
Theorem c135_report_of_single_findings : forall w i s sel xs n ev, finished w i s sel xs n ev ->
  exists r c V l shown text e,
    found (os_cfg s) sel xs l /\ to_show (allowDuplicatedViolations s) l shown
    /\ vw_violations V = map (entry_of shipped_env) shown /\ vw_files V = Z.of_nat (length xs) /\ ruled_view V
    /\ presents shipped_env (allowDuplicatedViolations s) c V
    /\ reporter_found (program w i) s r /\ reports r (allowDuplicatedViolations s) c (Val text)
    /\ report_event (program w i) s text e /\ In e ev.
Proof.
  intros w i s sel xs n ev Fi. pose proof Fi as (M & N & O & _).
  destruct (finished_inv _ _ _ _ _ _ _ Fi) as (rules & r & c & l & text & e & L & R & A & Dr & F & Ec & Le & Re & Ev & Ie).
  destruct (presented shipped_env (allowDuplicatedViolations s) c) as (V & P).
  pose proof (c127_every_violation_has_a_rule _ _ _ _ _ _ O A P) as RV. pose proof P as ((shown & Sh & Es) & _ & _ & _ & Ef & _).
  exists r, c, V, l, shown, text, e. split; [exact F|]. split.
  { unfold to_show, shows in *. unfold collected_list in Sh. rewrite Ec in Sh. exact Sh. }
  split; [exact Es|]. split; [rewrite Ef, Le; reflexivity|]. destruct Re as [Re _]. auto 10.
Qed.
(** Listed exactly if some rule, run alone on some file alone, finds it. *)
Theorem c135_listed_iff_found : forall c sel xs l dup shown v, found c sel xs l -> to_show dup l shown ->
  (In v shown <-> exists x k vs, In x xs /\ In k sel /\ alone c k x vs /\ In v vs).
Proof.
  intros c sel xs l dup shown v (table & T & ->) Sh. rewrite concat_concat in Sh. rewrite <- (table_in _ _ _ _ v T).
  unfold to_show in Sh. destruct dup; [now subst|]. destruct Sh as (_ & I & _). apply I.
Qed.
Theorem c135_text_report : forall w i s sel xs n ev, finished w i s sel xs n ev ->
  o_value (argOutput s) = $"-" -> (forall r, reporter_found (program w i) s r -> r = TextReporter shipped_env) ->
  exists V l shown, found (os_cfg s) sel xs l /\ to_show (allowDuplicatedViolations s) l shown
    /\ vw_violations V = map (entry_of shipped_env) shown /\ vw_files V = Z.of_nat (length xs)
    /\ In (EOut (text_text V)) ev.
Proof.
  intros w i s sel xs n ev Fi Out Rp.
  destruct (c135_report_of_single_findings _ _ _ _ _ _ _ Fi) as (r & c & V & l & shown & text & e & F & Sh & Ev & Ef & RV & P & R & Re & Ee & Ie).
  apply Rp in R as ->. apply (text_exact _ _ _ V) in Re; auto. injection Re as ->.
  exists V, l, shown. repeat (split; [assumption|]). destruct Ee as [[_ ->]|[C _]]; [exact Ie|congruence].
Qed.
(** A JSON report on standard output can be read back to what the rules find alone. *)
Theorem c135_json_output : forall w i s sel xs n ev now out, finished w i s sel xs n ev ->
  w_listRules w = false -> o_value (argOutput s) = $"-" -> enableClangChecker s = false ->
  (forall r, reporter_found (program w i) s r -> r = JSONReporter shipped_env now) ->
  spelt_in json_char json_char xs -> stdout false i s ev out ->
  exists V l shown timestamp, json_text (view_json timestamp V) out /\ (forall j, json_text j out -> j = view_json timestamp V)
    /\ found (os_cfg s) sel xs l /\ to_show (allowDuplicatedViolations s) l shown
    /\ vw_violations V = map (entry_of shipped_env) shown /\ vw_files V = Z.of_nat (length xs).
Proof.
  intros w i s sel xs n ev now out Fi Li Out Ch Rp Sp So. pose proof Fi as (M & N & O & _ & X & _).
  destruct (c127_json_output w i ev n s xs now out M N Li O Out Ch Rp X Sp So) as (rules' & c' & V & ts & L' & A' & P & _ & J).
  destruct (finished_inv _ _ _ _ _ _ _ Fi) as (rules & r & c & l & text & e & L & R & A & Dr & F & Ec & Le & Re & Ev & Ie).
  pose proof (rules_loaded_det _ _ _ _ L L'). subst rules'. pose proof (analysed_det _ _ _ _ _ A A'). subst c'.
  pose proof P as ((shown & Sh & Es) & _ & _ & _ & Ef & _).
  exists V, l, shown, ts. split; [exact J|]. split; [intros j Hj; exact (c67_one_reading _ _ _ Hj J)|]. split; [exact F|]. split.
  { unfold to_show, shows in *. unfold collected_list in Sh. rewrite Ec in Sh. exact Sh. }
  split; [exact Es|]. rewrite Ef, Le. reflexivity.
Qed.

(** ** Less work *)
(** [a] is a part of [b], whatever the order. *)
Definition part_of {A} (a b : list A) : Prop := exists more, Permutation (a ++ more) b.

Lemma part_refl {A} (a : list A) : part_of a a.
Proof. exists []. now rewrite app_nil_r. Qed.
Lemma part_perm {A} (a b : list A) : Permutation a b -> part_of a b.
Proof. intros P. exists []. now rewrite app_nil_r. Qed.
Lemma part_trans {A} (a b c : list A) : part_of a b -> part_of b c -> part_of a c.
Proof. intros [m P] [m' P']. exists (m ++ m'). rewrite app_assoc, P. exact P'. Qed.
Lemma part_flat_map {A B} (f : A -> list B) a b : part_of a b -> part_of (flat_map f a) (flat_map f b).
Proof. intros [m P]. exists (flat_map f m). rewrite <- flat_map_app. now apply Permutation_flat_map. Qed.
Lemma part_pointwise {A B} (f g : A -> list B) l : (forall x, part_of (f x) (g x)) -> part_of (flat_map f l) (flat_map g l).
Proof.
  intros H. induction l as [|x l [m IH]]; [apply part_refl|]. destruct (H x) as [m' P]. exists (m' ++ m). cbn [flat_map].
  rewrite <- P, <- IH, <- !app_assoc. apply Permutation_app_head. rewrite !app_assoc. apply Permutation_app_tail, Permutation_app_comm.
Qed.
Lemma part_in {A} (a b : list A) x : part_of a b -> In x a -> In x b.
Proof. intros [m P] I. apply (Permutation_in _ P), in_app_iff. now left. Qed.
Lemma part_filter {A} (p : A -> bool) a b : part_of a b -> length (filter p a) <= length (filter p b).
Proof.
  intros [m P]. assert (Q : Permutation (filter p (a ++ m)) (filter p b)).
  { clear - P. induction P; cbn [filter]; [constructor|destruct (p x); auto|destruct (p x), (p y); auto; apply perm_swap|etransitivity; eauto]. }
  apply Permutation_length in Q. rewrite filter_app, app_length in Q. lia.
Qed.
Lemma filter_incl_len {A} (p : A -> bool) a b : NoDup a -> (forall x, In x a -> In x b) -> length (filter p a) <= length (filter p b).
Proof.
  intros N I. apply NoDup_incl_length; [now apply NoDup_filter|]. intros x Hx. apply filter_In in Hx as [Hx E]. apply filter_In. auto.
Qed.
Lemma found_map c : exists f, forall sel xs l, found c sel xs l -> l = flat_map (fun x => flat_map (fun k => f k x) sel) xs.
Proof.
  exists (fun k x => match takeoff c k x r_initial with Val (v, _) => recordable v | _ => [] end).
  intros sel xs l (t & T & ->). rewrite concat_concat. induction T as [|x row xs t F T IH]; [reflexivity|].
  cbn [map concat flat_map]. rewrite IH. f_equal. clear - F. induction F as [|k vs sel row A F IH]; [reflexivity|].
  cbn [flat_map concat]. rewrite IH. f_equal. apply alone_iff in A as (v & st & E & ->). now rewrite E.
Qed.
Lemma found_part c sel xs l sel' xs' l' : found c sel xs l -> found c sel' xs' l' -> part_of sel sel' -> part_of xs xs' -> part_of l l'.
Proof.
  intros F F' P Q. destruct (found_map c) as [f H]. rewrite (H _ _ _ F), (H _ _ _ F').
  eapply part_trans; [apply part_flat_map; exact Q|]. apply part_pointwise. intros x. now apply part_flat_map.
Qed.
Lemma found_unique c sel xs l l' : found c sel xs l -> found c sel xs l' -> l = l'.
Proof. intros F F'. destruct (found_map c) as [f H]. now rewrite (H _ _ _ F), (H _ _ _ F'). Qed.
Lemma count_part dup l l' shown shown' p : part_of l l' -> to_show dup l shown -> to_show dup l' shown' ->
  length (filter p shown) <= length (filter p shown').
Proof.
  intros P S S'. unfold to_show in *. destruct dup; [subst; now apply part_filter|].
  destruct S as (N & I & _), S' as (N' & I' & _). apply filter_incl_len; auto.
  intros x Hx. apply I'. apply (part_in _ _ _ P). now apply I.
Qed.

(** Fewer files and fewer rules, in any order, and limits at least as high: a run that
    succeeded still does. *)
Theorem c135_less_work_still_succeeds : forall w i s sel xs n ev w' i' s' sel' xs' ev',
  finished w i s sel xs n ev -> (n = 0 \/ n = 5)%Z -> finished w' i' s' sel' xs' 0 ev' ->
  os_cfg s = os_cfg s' -> allowDuplicatedViolations s = allowDuplicatedViolations s' ->
  (maxP1 s' <= maxP1 s)%Z -> (maxP2 s' <= maxP2 s)%Z -> (maxP3 s' <= maxP3 s)%Z ->
  part_of sel sel' -> part_of xs xs' -> n = 0%Z.
Proof.
  intros w i s sel xs n ev w' i' s' sel' xs' ev' Fi N Fi' Ec Ed M1 M2 M3 P Q.
  destruct (finished_inv _ _ _ _ _ _ _ Fi) as (rules & r & c & l & text & e & L & R & A & Dr & F & Ecl & Le & _).
  destruct (finished_inv _ _ _ _ _ _ _ Fi') as (rules' & r' & c' & l' & text' & e' & L' & R' & A' & Dr' & F' & Ecl' & Le' & _).
  assert (W' : within_limits (program w' i') s' c').
  { destruct Fi' as (M & _ & O & _). destruct (main_exit _ _ _ M) as [X _]. remember 0%Z as z eqn:E in X. destruct X; try discriminate.
    pose proof (options_are_det _ _ _ O H). subst s0. pose proof (rules_loaded_det _ _ _ _ L' H0). subst rules0.
    pose proof (analysed_det _ _ _ _ _ A' H2). now subst c0. }
  destruct N as [->| ->]; [reflexivity|]. exfalso.
  assert (W : ~ within_limits (program w i) s c).
  { destruct Fi as (M & _ & O & _). destruct (main_exit _ _ _ M) as [X _]. remember 5%Z as z eqn:E in X. destruct X; try discriminate.
    pose proof (options_are_det _ _ _ O H). subst s0. pose proof (rules_loaded_det _ _ _ _ L H0). subst rules0.
    pose proof (analysed_det _ _ _ _ _ A H2). now subst c0. }
  apply W. intros shown Sh. destruct (shows_total (allowDuplicatedViolations s') c' QViolations) as [shown' Sh'].
  destruct (W' shown' Sh') as (C1 & C2 & C3). rewrite <- Ec in F'. pose proof (found_part _ _ _ _ _ _ _ F F' P Q) as Pl.
  assert (S : to_show (allowDuplicatedViolations s) l shown).
  { unfold to_show, shows, collected_list in *. now rewrite Ecl in Sh. }
  assert (S' : to_show (allowDuplicatedViolations s) l' shown').
  { unfold to_show, shows, collected_list in *. rewrite Ed. now rewrite Ecl' in Sh'. }
  assert (K : forall p, (count_priority (program w i) p shown <= count_priority (program w' i') p shown')%Z).
  { intros p. unfold count_priority. apply inj_le. exact (count_part _ _ _ _ _ _ Pl S S'). }
  pose proof (K 1%Z). pose proof (K 2%Z). pose proof (K 3%Z). lia.
Qed.
(** The order of the files and of the rules does not matter for the exit code. *)
Theorem c135_order_does_not_matter : forall w i s sel xs n ev w' i' s' sel' xs' n' ev',
  finished w i s sel xs n ev -> finished w' i' s' sel' xs' n' ev' -> (n <> 6 -> n' <> 6 -> 
  os_cfg s = os_cfg s' -> allowDuplicatedViolations s = allowDuplicatedViolations s' ->
  maxP1 s = maxP1 s' -> maxP2 s = maxP2 s' -> maxP3 s = maxP3 s' ->
  Permutation sel sel' -> Permutation xs xs' -> n = n')%Z.
Proof.
  intros w i s sel xs n ev w' i' s' sel' xs' n' ev' Fi Fi' N N' Ec Ed M1 M2 M3 P Q.
  assert (K : (n = 0 \/ n = 5)%Z) by (destruct Fi as (_ & Z & _); intuition).
  assert (K' : (n' = 0 \/ n' = 5)%Z) by (destruct Fi' as (_ & Z & _); intuition).
  destruct K as [->| ->], K' as [->| ->]; auto.
  - exfalso. pose proof (c135_less_work_still_succeeds _ _ _ _ _ _ _ _ _ _ _ _ _ Fi' (or_intror eq_refl) Fi) as X.
    assert (5 = 0)%Z by (apply X; auto; try lia; apply part_perm; now symmetry). discriminate.
  - pose proof (c135_less_work_still_succeeds _ _ _ _ _ _ _ _ _ _ _ _ _ Fi (or_intror eq_refl) Fi') as X.
    apply X; auto; try lia; now apply part_perm.
Qed.
(** Nor for what is listed. *)
Theorem c135_order_permutes_the_list : forall c sel xs l dup shown sel' xs' l' shown',
  found c sel xs l -> to_show dup l shown -> found c sel' xs' l' -> to_show dup l' shown' ->
  Permutation sel sel' -> Permutation xs xs' -> Permutation shown shown'.
Proof.
  intros c sel xs l dup shown sel' xs' l' shown' F S F' S' P Q.
  pose proof (found_part _ _ _ _ _ _ _ F F' (part_perm _ _ P) (part_perm _ _ Q)) as A.
  pose proof (found_part _ _ _ _ _ _ _ F' F (part_perm _ _ (Permutation_sym P)) (part_perm _ _ (Permutation_sym Q))) as B.
  unfold to_show in *. destruct dup.
  - subst. destruct A as [m A], B as [m' B]. pose proof (Permutation_length A) as La. pose proof (Permutation_length B) as Lb. rewrite app_length in La, Lb.
    assert (m = []) as -> by (destruct m; auto; cbn in La; lia). now rewrite app_nil_r in A.
  - destruct S as (N & I & _), S' as (N' & I' & _). apply NoDup_Permutation; auto.
    intros x. rewrite (I x), (I' x). split; apply part_in; assumption.
Qed.
(** ** Splitting a project *)
(** Without duplicates removed, the findings on two groups of files are those of the groups, one after the other. *)
Theorem c135_groups_of_files : forall c sel xs ys l m lm, found c sel xs l -> found c sel ys m -> found c sel (xs ++ ys) lm -> lm = l ++ m.
Proof.
  intros c sel xs ys l m lm F G H. destruct (found_map c) as [f K]. rewrite (K _ _ _ F), (K _ _ _ G), (K _ _ _ H). apply flat_map_app.
Qed.
(** With all limits zero, the whole project succeeds exactly if both halves do. *)
Theorem c135_halves : forall w i s sel n ev w1 i1 s1 xs1 n1 ev1 w2 i2 s2 xs2 n2 ev2,
  finished w i s sel (xs1 ++ xs2) n ev -> finished w1 i1 s1 sel xs1 n1 ev1 -> finished w2 i2 s2 sel xs2 n2 ev2 ->
  (n <> 6 -> n1 <> 6 -> n2 <> 6 -> os_cfg s1 = os_cfg s -> os_cfg s2 = os_cfg s ->
  Forall (fun t => maxP1 t = 0 /\ maxP2 t = 0 /\ maxP3 t = 0) [s; s1; s2] ->
  (n = 0 <-> n1 = 0 /\ n2 = 0))%Z.
Proof.
  intros w i s sel n ev w1 i1 s1 xs1 n1 ev1 w2 i2 s2 xs2 n2 ev2 Fi F1 F2 N N1 N2 E1 E2 Z.
  inversion Z as [|? ? (A1 & A2 & A3) Z1]; subst. inversion Z1 as [|? ? (B1 & B2 & B3) Z2]; subst. inversion Z2 as [|? ? (C1 & C2 & C3) _]; subst.
  assert (G : forall w i s sel xs n ev, finished w i s sel xs n ev -> (n <> 6)%Z -> maxP1 s = 0%Z -> maxP2 s = 0%Z -> maxP3 s = 0%Z ->
    (n = 0%Z <-> forall x k, In x xs -> In k sel -> (1 <= ri_priority (shipped_env k) <= 3)%Z -> alone (os_cfg s) k x [])).
  { clear. intros w i s sel xs n ev (M & N & O & (rules & L & D & F) & X & Sp) N6 M1 M2 M3.
    eapply c114_success_iff_silent; eauto. intuition. }
  rewrite (G _ _ _ _ _ _ _ Fi N A1 A2 A3), (G _ _ _ _ _ _ _ F1 N1 B1 B2 B3), (G _ _ _ _ _ _ _ F2 N2 C1 C2 C3). rewrite E1, E2. split.
  - intros H. split; intros x k Ix Ik Hp; apply H; auto; apply in_app_iff; auto.
  - intros [H1 H2] x k Ix Ik Hp. apply in_app_iff in Ix as [Ix|Ix]; auto.
Qed.

(** ** Cases *)
Lemma ex_separate : separate [ex_x; ex_z].
Proof.
  constructor; [|constructor; [intros y []|constructor]]. intros y [<-|[]]. split; [intros E'; discriminate E'|].
  intros i Hx Hy. apply address_iff in Hx, Hy. vm_compute in Hx, Hy. intuition lia.
Qed.
(** a.c and b.c with the goto rule: success.  With the short-name rule as well: failure, and a
    variable of each file in the report. *)
Example c135_case : exists s ev s' ev' v u,
  finished (ex_world [10]) (ex_inputs ex_x ex_z) s [10] [ex_x; ex_z] 0 ev
  /\ finished (ex_world [10; 52]) (ex_inputs ex_x ex_z) s' [10; 52] [ex_x; ex_z] 5 ev'
  /\ os_cfg s = os_cfg s' /\ allowDuplicatedViolations s = allowDuplicatedViolations s'
  /\ found (os_cfg s') [10; 52] [ex_x; ex_z] [v; u] /\ v_rule v = Some 52 /\ v_path v = $"a.c" /\ v_path u = $"b.c".
Proof.
  destruct c114_case as (_ & ev & s & M & O & _ & _ & _ & L & F & X & _).
  assert (M' : exists ev', main (program (ex_world [10; 52]) (ex_inputs ex_x ex_z)) = (ev', Exit 5)) by (eexists; vm_compute; reflexivity).
  destruct M' as [ev' M'].
  assert (K : exists s', options_are (program (ex_world [10; 52]) (ex_inputs ex_x ex_z)) s' /\ rules_loaded (program (ex_world [10; 52]) (ex_inputs ex_x ex_z)) s' [10; 52]
    /\ filteredRules shipped_env (os_filter s') (registry [10; 52]) = Val [10; 52] /\ os_cfg s = os_cfg s' /\ allowDuplicatedViolations s = allowDuplicatedViolations s'
    /\ os_cfg s' = cfg_fresh).
  { destruct (main_exit _ _ _ M') as [Y _]. remember 5%Z as z eqn:E in Y. destruct Y; try discriminate E. exists s0.
    split; auto. destruct O as (cl0 & Hcl0 & Hp0). cbn [w_cmdline program ex_world] in Hcl0. injection Hcl0 as <-. vm_compute in Hp0. injection Hp0 as <-.
    pose proof H as (cl & Hcl & Hp). cbn [w_cmdline program ex_world] in Hcl. injection Hcl as <-. vm_compute in Hp. injection Hp as <-.
    split; [|repeat split; vm_compute; reflexivity].
    pose proof H0 as (ps & As & _ & R & _). rewrite (asked_det _ _ _ As) in R.
    match type of As with asked ?w (rulesPath _ ?s) _ =>
      assert (Ls : exists ls, consumeArgRulesPath w (rulesPath (w_env w) s) l_initial = (ls, Val tt) /\ l_rules ls = Some [Some 10; Some 52])
        by (eexists; split; vm_compute; reflexivity) end.
    destruct Ls as (ls & Ls & L'). destruct (rules_loaded_intro _ _ _ Ls) as (rules' & Er & R' & _).
    rewrite (registered_det _ _ _ _ R R') in H0. rewrite L', registry_eq in Er.
    destruct rules' as [|a [|b [|d rest]]]; cbn in Er; try discriminate Er. injection Er as <- <-. exact H0. }
  destruct K as (s' & O' & L' & F' & Ec & Ed & Ef).
  assert (W : exists v u, found cfg_fresh [10; 52] [ex_x; ex_z] [v; u] /\ v_rule v = Some 52 /\ v_path v = $"a.c" /\ v_path u = $"b.c").
  { do 2 eexists. split.
    - eexists [[[]; [_]]; [[]; [_]]]. split; [|reflexivity].
      unfold each_alone. do 2 (apply Forall2_cons; [do 2 (apply Forall2_cons; [apply alone_iff; do 2 eexists; split; vm_compute; reflexivity|]); apply Forall2_nil|]).
      apply Forall2_nil.
    - repeat split; reflexivity. }
  destruct W as (v & u & W & Wr & Wl). exists s, ev, s', ev', v, u.
  split; [|split].
  - split; [exact M|]. split; [auto|]. split; [exact O|]. split; [|split; [exact X|exact ex_separate]]. exists [10]. repeat split; auto. constructor; [intros []|constructor].
  - split; [exact M'|]. split; [auto|]. split; [exact O'|]. split; [|split; [exact X|exact ex_separate]]. exists [10; 52]. repeat split; auto. constructor; [intros [H|[]]; discriminate H|constructor; [intros []|constructor]].
  - split; [exact Ec|]. split; [exact Ed|]. rewrite Ef. split; [exact W|]. split; assumption.
Qed.

Print Assumptions c135_report_of_single_findings.
Print Assumptions c135_listed_iff_found.
Print Assumptions c135_text_report.
Print Assumptions c135_json_output.
Print Assumptions c135_less_work_still_succeeds.
Print Assumptions c135_order_does_not_matter.
Print Assumptions c135_order_permutes_the_list.
Print Assumptions c135_groups_of_files.
Print Assumptions c135_halves.
Print Assumptions c135_case.
