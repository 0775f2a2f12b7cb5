(** * Proofs about the reporters *)
From Verif Require Import Base BaseFacts ModelResults SpecResults ProofResults ModelConfig SpecConfig ProofConfig ModelFilter ModelOptions
  ModelMain SpecMain ProofMain SpecJSON ProofJSON SpecXML ModelReporters SpecReporters.
Local Arguments lit : simpl never.

(** ** Evaluation with fixed answers *)
Fixpoint reval (A : query -> list violation) (p : reporting) : outcome str :=
  match p with RDone o => o | RAsk q k => reval A (k (A q)) end.
Lemma reval_session dup c A p : (forall q, shows dup c q (A q)) -> session (shows dup c) p (reval A p).
Proof. intros H. induction p as [o|q k IH]; cbn; [constructor|]. econstructor; eauto. Qed.
Lemma reval_iff dup c A r o : (forall q, shows dup c q (A q)) -> (reports r dup c o <-> o = reval A (rp_report r c)).
Proof.
  intros H. split.
  - intros S. eapply session_det; [exact S|]. now apply reval_session.
  - intros ->. now apply reval_session.
Qed.
Definition oapp (a b : outcome str) : outcome str :=
  match a, b with Val s, Val t => Val (s ++ t) | Val _, o => o | o, _ => o end.
Lemma reval_bind A p f : reval A (rbind p f) = match reval A p with Val s => reval A (f s) | o => o end.
Proof. induction p as [o|q k IH]; [destruct o; reflexivity|]. cbn. apply IH. Qed.
Lemma reval_then A a b : reval A (a >>> b) = oapp (reval A a) (reval A b).
Proof.
  unfold thenWrite. rewrite reval_bind. destruct (reval A a) as [s|w|]; try reflexivity. rewrite reval_bind. destruct (reval A b); reflexivity.
Qed.
Lemma reval_out A s : reval A (out s) = Val s. Proof. reflexivity. Qed.
Lemma reval_ask A q k : reval A (RAsk q k) = reval A (k (A q)). Proof. reflexivity. Qed.
Lemma reval_each A f g l : (forall v, In v l -> reval A (f v) = Val (g v)) -> reval A (forEach f l) = Val (concat (map g l)).
Proof.
  induction l as [|v l IH]; intros H; cbn [forEach]; [reflexivity|].
  rewrite reval_then, (H v) by (now left). rewrite IH by (intros; apply H; now right). reflexivity.
Qed.
Lemma reval_each_ub A f l : (forall v, In v l -> reval A (f v) = UB \/ exists s, reval A (f v) = Val s) ->
  (exists v, In v l /\ reval A (f v) = UB) -> reval A (forEach f l) = UB.
Proof.
  induction l as [|v l IH]; intros H (x & Hx & E); [destruct Hx|]. cbn [forEach]. rewrite reval_then.
  destruct (H v (or_introl eq_refl)) as [->|(s & Es)]; [reflexivity|]. rewrite Es.
  rewrite IH; [reflexivity| |].
  - intros y Hy. apply H. now right.
  - destruct Hx as [->|Hx]; [congruence|]. exists x. auto.
Qed.
Lemma oapp_val s o : (exists t, o = Val t /\ True) -> exists t, oapp (Val s) o = Val t /\ True.
Proof. intros (t & -> & _). eexists. split; [reflexivity|exact I]. Qed.

(** ** The view as answers *)
Lemma presents_answers env dup c V : presents env dup c V ->
  exists A, (forall q, shows dup c q (A q))
  /\ vw_violations V = map (entry_of env) (A QViolations) /\ vw_errors V = map (entry_of env) (A QErrors)
  /\ vw_warnings V = map (entry_of env) (A QWarnings) /\ vw_bugs V = map (entry_of env) (A QBugs)
  /\ vw_files V = numberOfFiles c /\ vw_filesWithViolations V = numberOfFilesWithViolations c.
Proof.
  intros ((l1 & S1 & E1) & (l2 & S2 & E2) & (l3 & S3 & E3) & (l4 & S4 & E4) & E5 & (n & D & E6)).
  exists (fun q => match q with QViolations => l1 | QErrors => l2 | QWarnings => l3 | QBugs => l4 end).
  split; [intros []; auto|]. do 5 (split; [assumption|]).
  destruct (c05_count c) as (m & D' & ->). now rewrite (distinct_count_det _ _ _ D' D).
Qed.
Lemma presents_total env dup c : exists V, presents env dup c V.
Proof.
  destruct (shows_total dup c QViolations) as (l1 & S1), (shows_total dup c QErrors) as (l2 & S2),
    (shows_total dup c QWarnings) as (l3 & S3), (shows_total dup c QBugs) as (l4 & S4). destruct (c05_count c) as (n & D & E).
  exists {| vw_violations := map (entry_of env) l1; vw_errors := map (entry_of env) l2; vw_warnings := map (entry_of env) l3;
            vw_bugs := map (entry_of env) l4; vw_files := Z.of_nat (length (c_collection c)); vw_filesWithViolations := Z.of_nat n |}.
  repeat split; cbn; eauto.
Qed.
Lemma ruled_answers env l : Forall (fun e => e_rule e <> None) (map (entry_of env) l) <-> Forall (fun v => v_rule v <> None) l.
Proof.
  rewrite Forall_map. split; intros H; (eapply Forall_impl; [|exact H]); intros v; cbn; destruct (v_rule v); congruence.
Qed.
Lemma count_answers env p V l : vw_violations V = map (entry_of env) l ->
  count_of p V = Z.of_nat (length (filter (has_priorityb env p) l)).
Proof.
  intros E. unfold count_of. rewrite E. f_equal. clear E. induction l as [|v l IH]; [reflexivity|].
  cbn [map filter]. replace (of_priority p (entry_of env v)) with (has_priorityb env p v).
  - destruct (has_priorityb env p v); cbn [length]; congruence.
  - unfold has_priorityb, of_priority, entry_of. cbn. now destruct (v_rule v).
Qed.
Lemma reval_priority env A p V : vw_violations V = map (entry_of env) (A QViolations) -> ruled_view V ->
  reval A (askPriority env p) = Val (show_Z (count_of p V)).
Proof.
  intros E R. unfold askPriority. cbn [reval]. unfold ruled_view in R. rewrite E in R. rewrite c04_val by (now apply (ruled_answers env)).
  cbn [reval out]. now rewrite (count_answers env p V _ E).
Qed.
Lemma reval_priority_ub env A p : (exists v, In v (A QViolations) /\ v_rule v = None) -> reval A (askPriority env p) = UB.
Proof. intros H. unfold askPriority. cbn [reval]. now rewrite c04_ub. Qed.
Lemma ruled_or (V : view) : ruled_view V \/ exists e, In e (vw_violations V) /\ e_rule e = None.
Proof.
  unfold ruled_view. induction (vw_violations V) as [|e l IH]; [left; constructor|].
  destruct (e_rule e) eqn:E; [|right; exists e; cbn; auto].
  destruct IH as [IH|(x & Hx & Ex)]; [left; constructor; congruence|right; exists x; cbn; auto].
Qed.
Lemma each_lines env A f g q l : l = map (entry_of env) (A q) -> (forall v, In v (A q) -> reval A (f v) = Val (g (entry_of env v))) ->
  reval A (forEach f (A q)) = Val (concat (map g l)).
Proof. intros -> H. rewrite (reval_each A f (fun v => g (entry_of env v))) by exact H. now rewrite map_map. Qed.
Lemma has_list l : hasList l = negb (is_nil l).
Proof. destruct l; reflexivity. Qed.
Definition ruled_in {env V A} (E : vw_violations V = map (entry_of env) (A QViolations)) (R : ruled_view V) :
  forall v : violation, In v (A QViolations) -> exists a, v_rule v = Some a.
Proof.
  unfold ruled_view in R. rewrite E, ruled_answers, Forall_forall in R. intros v Hv. specialize (R v Hv). destruct (v_rule v); eauto. congruence.
Qed.

(** ** Numbers *)
Lemma pos_digits_head : forall fuel n acc, (0 < n)%Z -> (n < 2 ^ Z.of_nat fuel)%Z -> exists d r, pos_digits fuel n acc = d :: r /\ d <> "0"%char.
Proof.
  induction fuel as [|f IH]; intros n acc H L; [cbn in L; lia|]. cbn [pos_digits]. destruct (n <? 10)%Z eqn:E.
  - apply Z.ltb_lt in E. do 2 eexists. split; [reflexivity|]. intros X. apply (f_equal code) in X. apply (f_equal Z.of_nat) in X.
    rewrite code_digit in X by lia. change (Z.of_nat (code "0")) with 48%Z in X. lia.
  - apply Z.ltb_ge in E. apply IH; [apply Z.div_str_pos; lia|]. apply Z.div_lt_upper_bound; [lia|].
    rewrite Nat2Z.inj_succ, Z.pow_succ_r in L by lia. nia.
Qed.
Lemma show_nonneg_head n d r : (0 <= n)%Z -> show_nonneg n = "0"%char :: d :: r -> False.
Proof.
  intros H E. destruct (Z.eq_dec n 0) as [->|N]; [discriminate|].
  destruct (pos_digits_head (S (Z.to_nat (Z.log2 (n + 1)))) n []) as (d' & r' & E' & Hd); [lia| |].
  - rewrite Nat2Z.inj_succ, Z2Nat.id by apply Z.log2_nonneg. destruct (Z.log2_spec (n + 1)); lia.
  - unfold show_nonneg in E. rewrite E' in E. congruence.
Qed.
Lemma show_decimal z : decimal z (show_Z z).
Proof.
  unfold show_Z. destruct (z <? 0)%Z eqn:E.
  - apply Z.ltb_lt in E. destruct (show_nonneg_spec (- z)) as (N & F & W); [lia|]. exists (show_nonneg (- z)).
    split; [exact N|]. split; [exact F|]. split; [intros d r; apply show_nonneg_head; lia|]. right. auto.
  - apply Z.ltb_ge in E. destruct (show_nonneg_spec z) as (N & F & W); [lia|]. exists (show_nonneg z).
    split; [exact N|]. split; [exact F|]. split; [intros d r; apply show_nonneg_head; lia|]. left. auto.
Qed.
Lemma digit_value c : isdigit c = true -> (0 <= Z.of_nat (code c) - 48 <= 9)%Z.
Proof. intros H. apply isdigit_bounds in H. lia. Qed.
Lemma value_bounds ds : Forall (fun c => isdigit c = true) ds -> (0 <= value_of_digits ds < 10 ^ Z.of_nat (length ds))%Z.
Proof.
  induction 1 as [|c ds Hc H IH]; [cbn; lia|]. cbn [value_of_digits length]. apply digit_value in Hc.
  rewrite Nat2Z.inj_succ, Z.pow_succ_r by lia. nia.
Qed.
Lemma value_inj : forall ds ds', Forall (fun c => isdigit c = true) ds -> Forall (fun c => isdigit c = true) ds' ->
  length ds = length ds' -> value_of_digits ds = value_of_digits ds' -> ds = ds'.
Proof.
  induction ds as [|c ds IH]; intros [|c' ds'] H H' L E; try discriminate; auto. cbn in L. injection L as L.
  inversion H as [|? ? Hc Hd]; inversion H' as [|? ? Hc' Hd']; subst. cbn [value_of_digits] in E. rewrite L in E.
  pose proof (value_bounds ds Hd) as B. pose proof (value_bounds ds' Hd') as B'. rewrite L in B.
  assert (Z.of_nat (code c) = Z.of_nat (code c')) by nia.
  f_equal; [apply code_inj; lia|]. apply IH; auto. nia.
Qed.
Lemma value_length ds : Forall (fun c => isdigit c = true) ds -> ds <> [] -> (forall d r, ds = "0"%char :: d :: r -> False) ->
  (value_of_digits ds = 0%Z /\ length ds = 1) \/ (10 ^ (Z.of_nat (length ds) - 1) <= value_of_digits ds)%Z.
Proof.
  intros H N Z0. destruct H as [|c ds Hc H]; [congruence|]. cbn [value_of_digits length]. pose proof (value_bounds ds H) as B.
  destruct (Ascii.eqb_spec c "0"%char) as [->|Hn].
  - destruct ds as [|d r]; [left; auto|]. exfalso. eapply Z0. reflexivity.
  - right. replace (Z.of_nat (S (length ds)) - 1)%Z with (Z.of_nat (length ds)) by lia.
    assert (1 <= Z.of_nat (code c) - 48)%Z.
    { apply digit_value in Hc. assert (Z.of_nat (code c) <> 48%Z); [|lia]. intros X. apply Hn, code_inj. change (code "0") with 48. lia. }
    nia.
Qed.
Lemma numeral_inj ds ds' : Forall (fun c => isdigit c = true) ds -> ds <> [] -> (forall d r, ds = "0"%char :: d :: r -> False) ->
  Forall (fun c => isdigit c = true) ds' -> ds' <> [] -> (forall d r, ds' = "0"%char :: d :: r -> False) ->
  value_of_digits ds = value_of_digits ds' -> ds = ds'.
Proof.
  intros H N Z0 H' N' Z0' E. apply value_inj; auto.
  pose proof (value_length ds H N Z0) as L. pose proof (value_length ds' H' N' Z0') as L'.
  pose proof (value_bounds ds H) as B. pose proof (value_bounds ds' H') as B'.
  assert (1 <= length ds) by (destruct ds; cbn; [congruence|lia]). assert (1 <= length ds') by (destruct ds'; cbn; [congruence|lia]).
  destruct L as [[E1 L]|L], L' as [[E2 L']|L']; try congruence.
  - exfalso. assert (0 < 10 ^ (Z.of_nat (length ds') - 1))%Z by (apply Z.pow_pos_nonneg; lia). lia.
  - exfalso. assert (0 < 10 ^ (Z.of_nat (length ds) - 1))%Z by (apply Z.pow_pos_nonneg; lia). lia.
  - assert (P : forall a b, (10 ^ (Z.of_nat a - 1) < 10 ^ Z.of_nat b)%Z -> 1 <= a -> a <= b).
    { intros a b X Ha. apply (Z.pow_lt_mono_r_iff 10) in X; lia. }
    apply Nat.le_antisymm; apply P; auto; lia.
Qed.
Lemma decimal_show z t : decimal z t <-> t = show_Z z.
Proof.
  split; [|intros ->; apply show_decimal]. intros (ds & N & F & Z0 & K). destruct (show_decimal z) as (ds' & N' & F' & Z0' & K').
  destruct K as [(S & -> & W)|(S & -> & W)], K' as [(S' & -> & W')|(S' & -> & W')]; try lia.
  - apply numeral_inj; auto. congruence.
  - f_equal. apply numeral_inj; auto. congruence.
Qed.
Lemma show_inj a b : show_Z a = show_Z b -> a = b.
Proof.
  intros E. destruct (show_decimal a) as (da & Na & Fa & _ & Ka), (show_decimal b) as (db & Nb & Fb & _ & Kb).
  assert (M : forall ds z, Forall (fun c => isdigit c = true) ds -> ds <> "-"%char :: z).
  { intros ds z F ->. inversion F. discriminate. }
  destruct Ka as [(S & Ta & Wa)|(S & Ta & Wa)], Kb as [(S' & Tb & Wb)|(S' & Tb & Wb)]; rewrite Ta, Tb in E.
  - congruence.
  - now apply M in E.
  - symmetry in E. now apply M in E.
  - injection E as ->. lia.
Qed.
Definition numchar (c : ascii) : Prop := isdigit c = true \/ c = "-"%char.
Lemma show_chars z : Forall numchar (show_Z z).
Proof.
  destruct (show_decimal z) as (ds & _ & F & _ & K).
  assert (G : Forall numchar ds) by (eapply Forall_impl; [|exact F]; unfold numchar; auto).
  destruct K as [(_ & -> & _)|(_ & -> & _)]; auto. constructor; auto. now right.
Qed.
Lemma show_nonempty z : show_Z z <> [].
Proof. destruct (show_decimal z) as (ds & N & _ & _ & [(_ & -> & _)|(_ & -> & _)]); auto. discriminate. Qed.
Lemma show_without z c : isdigit c = false -> c <> "-"%char -> ~ In c (show_Z z).
Proof. intros D M H. pose proof (show_chars z) as F. rewrite Forall_forall in F. destruct (F c H); congruence. Qed.

(** ** Reading back *)
Lemma split_at (x : ascii) a b a' b' : ~ In x a -> ~ In x a' -> a ++ x :: b = a' ++ x :: b' -> a = a' /\ b = b'.
Proof.
  revert a'. induction a as [|c a IH]; intros [|c' a'] H H' E; cbn in *.
  - injection E as <-. auto.
  - injection E as -> _. tauto.
  - injection E as <- _. tauto.
  - injection E as <- E. destruct (IH a') as [-> ->]; auto.
Qed.
Lemma split_num z (x : ascii) b z' b' : isdigit x = false -> x <> "-"%char -> show_Z z ++ x :: b = show_Z z' ++ x :: b' -> z = z' /\ b = b'.
Proof.
  intros D M E. destruct (split_at x _ _ _ _ (show_without z x D M) (show_without z' x D M) E) as [S ->]. split; auto. now apply show_inj.
Qed.
Section Lists.
  Context {E K : Type} (line : E -> str) (key : E -> K) (ok : E -> Prop) (stop : str -> Prop).
  Hypothesis line_inj : forall e e' r r', ok e -> ok e' -> line e ++ r = line e' ++ r' -> key e = key e' /\ r = r'.
  Hypothesis line_stop : forall e r s, ok e -> stop s -> line e ++ r = s -> False.
  Lemma list_inj es es' s s' : Forall ok es -> Forall ok es' -> stop s -> stop s' ->
    concat (map line es) ++ s = concat (map line es') ++ s' -> map key es = map key es' /\ s = s'.
  Proof.
    intros O O' S S'. revert es' O'. induction O as [|e es Oe O IH]; intros es' O' H.
    - destruct O' as [|e' es' Oe' O']; [auto|]. cbn [map concat app] in H. rewrite <- app_assoc in H. symmetry in H. exfalso. eauto.
    - destruct O' as [|e' es' Oe' O']; cbn [map concat app] in H; rewrite <- ?app_assoc in H; [exfalso; eauto|].
      apply line_inj in H as [Hk H]; auto. apply IH in H as [Hm Hs]; auto. split; auto. cbn. congruence.
  Qed.
End Lists.
Lemma place_inj e e' r r' : ~ In ":"%char (e_path e) -> ~ In ":"%char (e_path e') -> at_place e ++ r = at_place e' ++ r' ->
  e_path e = e_path e' /\ e_line e = e_line e' /\ e_column e = e_column e' /\ r = r'.
Proof.
  intros H H' E. unfold at_place in E. rewrite <- !app_assoc in E. cbv [lit list_ascii_of_string] in E. cbn [app] in E.
  apply split_at in E as [-> E]; auto. apply split_num in E as [-> E]; try reflexivity; try discriminate.
  apply split_num in E as [-> E]; try reflexivity; try discriminate. injection E as ->. auto.
Qed.
Lemma tag_inj r r' s s' : ~ In "["%char (r_name r) -> ~ In "["%char (r_name r') -> ~ In "|"%char (r_category r) -> ~ In "|"%char (r_category r') ->
  tag r ++ s = tag r' ++ s' -> r = r' /\ s = s'.
Proof.
  intros N N' C C' E. unfold tag in E. rewrite <- !app_assoc in E. cbv [lit list_ascii_of_string] in E. cbn [app] in E.
  assert (Sp : forall n : str, n ++ " "%char :: "["%char :: (@nil ascii) = (n ++ [" "%char]) ++ ["["%char]) by (intros; now rewrite <- app_assoc).
  assert (E2 : (r_name r ++ [" "%char]) ++ "["%char :: (r_category r ++ "|"%char :: "P"%char :: show_Z (r_priority r) ++ "]"%char :: " "%char :: s)
             = (r_name r' ++ [" "%char]) ++ "["%char :: (r_category r' ++ "|"%char :: "P"%char :: show_Z (r_priority r') ++ "]"%char :: " "%char :: s')).
  { rewrite <- !app_assoc. exact E. }
  assert (NI : forall n, ~ In "["%char n -> ~ In "["%char (n ++ [" "%char])).
  { intros n Hn Hi. apply in_app_iff in Hi as [Hi|[Hi|[]]]; [auto|discriminate]. }
  apply split_at in E2 as [En E2]; auto. apply app_inj_tail in En as [En _].
  apply split_at in E2 as [Ec E2]; auto. injection E2 as E2. apply split_num in E2 as [Ep E2]; try reflexivity; try discriminate.
  injection E2 as ->. split; auto. destruct r, r'; cbn in *; congruence.
Qed.
Lemma message_inj (m m' : str) r r' : ~ In NL m -> ~ In NL m' -> m ++ [NL] ++ r = m' ++ [NL] ++ r' -> m = m' /\ r = r'.
Proof. intros H H' E. cbn [app] in E. now apply split_at in E. Qed.
Lemma finding_inj kind e e' r r' : readable e /\ e_rule e <> None -> readable e' /\ e_rule e' <> None ->
  finding_line kind e ++ r = finding_line kind e' ++ r' -> place_and_rule e = place_and_rule e' /\ r = r'.
Proof.
  intros [(P & PN & M & R) NR] [(P' & PN' & M' & R') NR'] E. unfold finding_line in E. rewrite <- !app_assoc in E.
  apply place_inj in E as (E1 & E2 & E3 & E); auto. apply app_inv_head in E.
  unfold place_and_rule. destruct (e_rule e) as [ru|] eqn:Er; [|congruence]. destruct (e_rule e') as [ru'|] eqn:Er'; [|congruence].
  destruct (R ru eq_refl), (R' ru' eq_refl). apply tag_inj in E as [-> E]; auto. apply message_inj in E as [-> E]; auto.
  split; auto. congruence.
Qed.
Lemma diagnostic_inj e e' r r' : readable e -> readable e' ->
  diagnostic_line e ++ r = diagnostic_line e' ++ r' -> place_and_message e = place_and_message e' /\ r = r'.
Proof.
  intros (P & PN & M & R) (P' & PN' & M' & R') E. unfold diagnostic_line in E. rewrite <- !app_assoc in E.
  apply place_inj in E as (E1 & E2 & E3 & E); auto. apply message_inj in E as [E4 E]; auto.
  split; auto. unfold place_and_message. congruence.
Qed.
Definition stops (s : str) : Prop := s = [] \/ exists r, s = NL :: r.
Lemma place_stop e r s : ~ In NL (e_path e) -> stops s -> at_place e ++ r = s -> False.
Proof.
  intros H S E. unfold at_place in E. rewrite <- !app_assoc in E. destruct (e_path e) as [|c p] eqn:Ep; cbv [lit list_ascii_of_string] in E; cbn [app] in E.
  - destruct S as [->|(z & ->)]; discriminate.
  - destruct S as [->|(z & ->)]; [discriminate|]. injection E as -> _. apply H. cbn. auto.
Qed.

(** ** Exact texts *)
Ltac texteq := cbv [lit list_ascii_of_string]; repeat (rewrite <- ?app_assoc; cbn [app]); reflexivity.
Lemma exact_text env r text : (forall A dup c V, (forall q, shows dup c q (A q)) -> ruled_view V ->
    vw_violations V = map (entry_of env) (A QViolations) -> vw_errors V = map (entry_of env) (A QErrors) ->
    vw_warnings V = map (entry_of env) (A QWarnings) -> vw_bugs V = map (entry_of env) (A QBugs) ->
    vw_files V = numberOfFiles c -> vw_filesWithViolations V = numberOfFilesWithViolations c ->
    reval A (rp_report r c) = Val (text V)) ->
  forall dup c V o, presents env dup c V -> ruled_view V -> (reports r dup c o <-> o = Val (text V)).
Proof.
  intros H dup c V o P R. destruct (presents_answers env dup c V P) as (A & S & E1 & E2 & E3 & E4 & E5 & E6).
  rewrite (reval_iff dup c A r o S). now rewrite (H A dup c V S R).
Qed.
Lemma unruled_text env r : (forall A dup c, (forall q, shows dup c q (A q)) -> (exists v, In v (A QViolations) /\ v_rule v = None) ->
    reval A (rp_report r c) = UB) ->
  forall dup c V o, presents env dup c V -> ~ ruled_view V -> (reports r dup c o <-> o = UB).
Proof.
  intros H dup c V o P R. destruct (presents_answers env dup c V P) as (A & S & E1 & _).
  rewrite (reval_iff dup c A r o S). rewrite (H A dup c S); [reflexivity|].
  destruct (ruled_or V) as [N|(e & He & Er)]; [now destruct R|]. rewrite E1 in He. apply in_map_iff in He as (v & <- & Hv).
  exists v. split; auto. unfold entry_of in Er. cbn in Er. destruct (v_rule v); [discriminate|reflexivity].
Qed.
Lemma xcode_line_eval env A v a : v_rule v = Some a ->
  reval A (xcode_writeViolation env v >>> endl) = Val (finding_line $"warning: " (entry_of env v)).
Proof.
  intros E. rewrite reval_then. unfold xcode_writeViolation, withRule, finding_line, at_place, tag, location, entry_of.
  cbn [e_path e_line e_column e_rule e_message]. rewrite E. cbn [reval out endl oapp r_name r_category r_priority]. f_equal. texteq.
Qed.
Lemma xcode_exact env : forall dup c V o, presents env dup c V -> ruled_view V ->
  (reports (XcodeReporter env) dup c o <-> o = Val (xcode_text V)).
Proof.
  apply exact_text. intros A dup c V S R E1 _ _ _ _ _. cbn [rp_report XcodeReporter]. rewrite reval_ask. unfold xcode_text.
  apply (each_lines env A _ (finding_line $"warning: ") QViolations); auto.
  intros v Hv. destruct (ruled_in E1 R v Hv) as (a & Ea). now apply (xcode_line_eval env A v a).
Qed.
Lemma xcode_ub env : forall dup c V o, presents env dup c V -> ~ ruled_view V -> (reports (XcodeReporter env) dup c o <-> o = UB).
Proof.
  apply unruled_text. intros A dup c S (v & Hv & Nv). cbn [rp_report XcodeReporter]. rewrite reval_ask. apply reval_each_ub.
  - intros x Hx. rewrite reval_then. unfold xcode_writeViolation, withRule. destruct (v_rule x); cbn; eauto.
  - exists v. split; auto. rewrite reval_then. unfold xcode_writeViolation, withRule. now rewrite Nv.
Qed.
Lemma text_line_eval env A v a : v_rule v = Some a ->
  reval A (text_writeViolation env v >>> endl) = Val (finding_line [] (entry_of env v)).
Proof.
  intros E. rewrite reval_then. unfold text_writeViolation, withRule, finding_line, at_place, tag, location, entry_of.
  cbn [e_path e_line e_column e_rule e_message]. rewrite E. cbn [reval out endl oapp r_name r_category r_priority]. f_equal. texteq.
Qed.
Lemma diagnostics_eval env A q title l : l = map (entry_of env) (A q) ->
  reval A (ifAny q (writeCompilerDiagnostics q title)) = Val (section title l).
Proof.
  intros E. unfold ifAny. rewrite reval_ask, has_list. destruct (A q) as [|v l0] eqn:Eq; cbn [is_nil negb].
  - rewrite E. reflexivity.
  - unfold writeCompilerDiagnostics. rewrite reval_ask, !reval_then.
    rewrite (each_lines env A _ diagnostic_line q l); [|now rewrite Eq|].
    + rewrite E. cbn [section map reval endl out oapp]. f_equal.
    + intros x Hx. rewrite reval_then. unfold writeCompilerErrorOrWarning, diagnostic_line, at_place, location. cbn [reval out endl oapp entry_of e_path e_line e_column e_message].
      f_equal. texteq.
Qed.
Lemma text_exact env : forall dup c V o, presents env dup c V -> ruled_view V ->
  (reports (TextReporter env) dup c o <-> o = Val (text_text V)).
Proof.
  apply exact_text. intros A dup c V S R E1 E2 E3 E4 E5 E6. cbn [rp_report TextReporter]. rewrite !reval_then.
  rewrite (diagnostics_eval env A QErrors _ _ E2), (diagnostics_eval env A QWarnings _ _ E3), (diagnostics_eval env A QBugs _ _ E4).
  unfold text_writeSummary. rewrite !reval_then, !(reval_priority env A _ V E1 R). rewrite reval_ask.
  rewrite (each_lines env A _ (finding_line []) QViolations _ E1).
  2:{ intros v Hv. destruct (ruled_in E1 R v Hv) as (a & Ea). now apply (text_line_eval env A v a). }
  rewrite <- E5, <- E6. cbn [reval endl out oapp]. f_equal. unfold text_text.
  change (section ($"Compiler Errors:" ++ [NL] ++ $"(please be aware that these errors will prevent OCLint from analyzing this source code)") (vw_errors V)) with (section errors_title (vw_errors V)).
  unfold homepage, version. do 3 f_equal. texteq.
Qed.
Lemma oapp_ub a : (a = UB \/ exists s, a = Val s) -> oapp a UB = UB.
Proof. intros [->|(s & ->)]; reflexivity. Qed.
Lemma text_ub env : forall dup c V o, presents env dup c V -> ~ ruled_view V -> (reports (TextReporter env) dup c o <-> o = UB).
Proof.
  apply unruled_text. intros A dup c S Nv. cbn [rp_report TextReporter]. rewrite !reval_then.
  rewrite (diagnostics_eval env A QErrors _ _ eq_refl), (diagnostics_eval env A QWarnings _ _ eq_refl), (diagnostics_eval env A QBugs _ _ eq_refl).
  unfold text_writeSummary. rewrite !reval_then, !(reval_priority_ub env A _ Nv). reflexivity.
Qed.
(** Reading the Xcode report back. *)
Lemma xcode_read V V' : ruled_view V -> ruled_view V' -> Forall readable (vw_violations V) -> Forall readable (vw_violations V') ->
  xcode_text V = xcode_text V' -> map place_and_rule (vw_violations V) = map place_and_rule (vw_violations V').
Proof.
  intros R R' O O' E. unfold xcode_text in E.
  destruct (list_inj (finding_line $"warning: ") place_and_rule (fun e => readable e /\ e_rule e <> None) (fun s => s = [])
    (fun e e' r r' => finding_inj _ e e' r r')) with (es := vw_violations V) (es' := vw_violations V') (s := @nil ascii) (s' := @nil ascii) as [K _]; auto.
  - intros e r s [(_ & PN & _) _] -> X. unfold finding_line in X. rewrite <- !app_assoc in X. eapply place_stop; [exact PN|left; reflexivity|exact X].
  - rewrite Forall_forall in *. unfold ruled_view in *. rewrite Forall_forall in *. auto.
  - rewrite Forall_forall in *. unfold ruled_view in *. rewrite Forall_forall in *. auto.
  - now rewrite !app_nil_r.
Qed.
Lemma diagnostics_read es es' s s' : Forall readable es -> Forall readable es' -> stops s -> stops s' ->
  concat (map diagnostic_line es) ++ s = concat (map diagnostic_line es') ++ s' -> map place_and_message es = map place_and_message es' /\ s = s'.
Proof.
  apply (list_inj diagnostic_line place_and_message readable stops diagnostic_inj).
  intros e r z (_ & PN & _) S X. unfold diagnostic_line in X. rewrite <- !app_assoc in X. eapply place_stop; eauto.
Qed.
Lemma section_read title es es' s s' : Forall readable es -> Forall readable es' ->
  (exists x r, s = NL :: x :: r /\ forall y, NL :: x :: r = NL :: title ++ y -> False) ->
  (exists x r, s' = NL :: x :: r /\ forall y, NL :: x :: r = NL :: title ++ y -> False) ->
  section title es ++ s = section title es' ++ s' -> map place_and_message es = map place_and_message es' /\ s = s'.
Proof.
  intros O O' (x & r & Es & Ns) (x' & r' & Es' & Ns') E.
  destruct es as [|e es], es' as [|e' es']; cbn [section app] in E.
  - auto.
  - exfalso. rewrite Es in E. rewrite <- ?app_assoc in E. eapply Ns. exact E.
  - exfalso. rewrite Es' in E. rewrite <- ?app_assoc in E. eapply Ns'. symmetry. exact E.
  - injection E as E. rewrite <- !app_assoc in E. apply app_inv_head in E. cbn [app] in E. injection E as E.
    apply diagnostics_read; auto; right; eexists; eauto.
Qed.
Lemma text_read V V' : ruled_view V -> ruled_view V' ->
  Forall readable (vw_violations V ++ vw_errors V ++ vw_warnings V ++ vw_bugs V) ->
  Forall readable (vw_violations V' ++ vw_errors V' ++ vw_warnings V' ++ vw_bugs V') ->
  text_text V = text_text V' ->
  map place_and_rule (vw_violations V) = map place_and_rule (vw_violations V')
  /\ map place_and_message (vw_errors V) = map place_and_message (vw_errors V')
  /\ map place_and_message (vw_warnings V) = map place_and_message (vw_warnings V')
  /\ map place_and_message (vw_bugs V) = map place_and_message (vw_bugs V')
  /\ vw_files V = vw_files V' /\ vw_filesWithViolations V = vw_filesWithViolations V'.
Proof.
  intros R R' O O' E. apply Forall_app in O as [O1 O], O' as [O1' O']. apply Forall_app in O as [O2 O], O' as [O2' O']. apply Forall_app in O as [O3 O4], O' as [O3' O4'].
  unfold text_text in E.
  match type of E with ?a ++ ?b ++ ?d ++ ?f = ?a' ++ ?b' ++ ?d' ++ ?f' => set (t := f) in E; set (t' := f') in E end.
  assert (T : exists z, t = NL :: NL :: z) by (eexists; reflexivity). assert (T' : exists z, t' = NL :: NL :: z) by (eexists; reflexivity).
  assert (K : t = t' /\ map place_and_message (vw_errors V) = map place_and_message (vw_errors V')
    /\ map place_and_message (vw_warnings V) = map place_and_message (vw_warnings V')
    /\ map place_and_message (vw_bugs V) = map place_and_message (vw_bugs V')).
  { clearbody t t'. destruct T as (z & ->), T' as (z' & ->).
    apply section_read in E as [E1 E]; auto;
      [|destruct (vw_warnings V) as [|w ws]; [destruct (vw_bugs V) as [|b bs]|]; do 2 eexists; (split; [reflexivity|]); intros y Y; discriminate Y
       |destruct (vw_warnings V') as [|w ws]; [destruct (vw_bugs V') as [|b bs]|]; do 2 eexists; (split; [reflexivity|]); intros y Y; discriminate Y].
    apply section_read in E as [E2 E]; auto;
      [|destruct (vw_bugs V) as [|b bs]; do 2 eexists; (split; [reflexivity|]); intros y Y; discriminate Y
       |destruct (vw_bugs V') as [|b bs]; do 2 eexists; (split; [reflexivity|]); intros y Y; discriminate Y].
    apply section_read in E as [E3 E]; auto;
      [do 2 eexists; (split; [reflexivity|]); intros y Y; discriminate Y
       |do 2 eexists; (split; [reflexivity|]); intros y Y; discriminate Y]. }
  destruct K as (K & K1 & K2 & K3). clear E T T'. subst t t'. cbv [lit list_ascii_of_string] in K. cbn [app] in K.
  injection K as K. rewrite <- ?app_assoc in K. cbn [app] in K.
  apply split_num in K as [F1 K]; try reflexivity; try discriminate. injection K as K.
  apply split_num in K as [F2 K]; try reflexivity; try discriminate. injection K as K.
  apply split_num in K as [_ K]; try reflexivity; try discriminate. injection K as K.
  apply split_num in K as [_ K]; try reflexivity; try discriminate. injection K as K.
  apply split_num in K as [_ K]; try reflexivity; try discriminate. injection K as K.
  apply (list_inj (finding_line []) place_and_rule (fun e => readable e /\ e_rule e <> None) stops (finding_inj [])) in K as [K _].
  - repeat (split; [assumption|]). assumption.
  - intros e r s [(_ & PN & _) _] S X. unfold finding_line in X. rewrite <- !app_assoc in X. eapply place_stop; eauto.
  - unfold ruled_view in *. rewrite Forall_forall in *. auto.
  - unfold ruled_view in *. rewrite Forall_forall in *. auto.
  - right. eexists. reflexivity.
  - right. eexists. reflexivity.
Qed.

(** ** JSON *)
Fixpoint joinc (l : list str) : str :=
  match l with [] => [] | x :: l' => x ++ match l' with [] => [] | _ => ","%char :: joinc l' end end.
Definition unbyte (c : jchar) : str := match c with JByte c => [c] | JUnit a b c d => ["\"; "u"; a; b; c; d]%char end.
Definition quoted (l : list jchar) : str := """"%char :: flat_map unbyte l ++ [""""%char].
Fixpoint jprint (j : json) : str :=
  match j with
  | JNull => $"null" | JTrue => $"true" | JFalse => $"false"
  | JNumber s => s
  | JString l => quoted l
  | JArray l => "["%char :: joinc (map jprint l) ++ ["]"%char]
  | JObject l => "{"%char :: joinc (map (fun m => match m with (k, v) => quoted k ++ ":"%char :: jprint v end) l) ++ ["}"%char]
  end.
Definition plainjc (c : jchar) : Prop := exists x, c = JByte x /\ 32 <= code x /\ x <> """"%char /\ x <> "\"%char.
Lemma quoted_string l : Forall plainjc l -> jstring l (quoted l).
Proof.
  intros H. exists (flat_map unbyte l). split; [|reflexivity]. induction H as [|c l (x & -> & L & Q & B) H IH]; [constructor|].
  cbn [flat_map unbyte]. constructor; auto. now constructor.
Qed.
Lemma bytes_plain s : json_plain s -> Forall plainjc (map JByte s).
Proof. intros H. apply Forall_map. eapply Forall_impl; [|exact H]. intros c (L & Q & B). exists c. auto. Qed.
Lemma unbyte_bytes s : flat_map unbyte (map JByte s) = s.
Proof. induction s as [|c s IH]; cbn; congruence. Qed.
Lemma white_nil : white []. Proof. constructor. Qed.
Definition printed (j : json) : Prop := jvalue j (jprint j).
Lemma printed_elements l : l <> [] -> Forall printed l -> jelements l (joinc (map jprint l)).
Proof.
  induction l as [|j l IH]; intros N H; [congruence|]. inversion H as [|? ? Hj Hl]; subst. destruct l as [|j' l].
  - cbn [map joinc]. pose proof (je_one j [] (jprint j) [] white_nil Hj white_nil) as X. exact X.
  - pose proof (je_more j [] (jprint j) [] (j' :: l) (joinc (map jprint (j' :: l))) white_nil Hj white_nil) as X. apply X.
    apply IH; auto. discriminate.
Qed.
Lemma printed_array l : Forall printed l -> printed (JArray l).
Proof.
  intros H. unfold printed. cbn [jprint]. destruct l as [|j l].
  - apply (jv_array_nil [] white_nil).
  - apply jv_array. apply printed_elements; auto. discriminate.
Qed.
Lemma printed_members l : l <> [] -> Forall (fun m => Forall plainjc (fst m) /\ printed (snd m)) l ->
  jmembers l (joinc (map (fun m => match m with (k, v) => quoted k ++ ":"%char :: jprint v end) l)).
Proof.
  induction l as [|[k j] l IH]; intros N H; [congruence|]. inversion H as [|? ? [Hk Hj] Hl]; subst. cbn [fst snd] in *. destruct l as [|m l].
  - pose proof (jm_one k (quoted k) j (jprint j) [] [] [] [] white_nil (quoted_string k Hk) white_nil white_nil Hj white_nil) as X.
    cbn [app map joinc] in *. rewrite app_nil_r in *. exact X.
  - pose proof (jm_more k (quoted k) j (jprint j) [] [] [] [] (m :: l) _ white_nil (quoted_string k Hk) white_nil white_nil Hj white_nil
      (IH ltac:(discriminate) Hl)) as X. cbn [app] in X. cbn [map] in *. cbn [joinc]. cbn [joinc] in X.
    rewrite <- app_assoc. cbn [app]. exact X.
Qed.
Lemma printed_object l : Forall (fun m => Forall plainjc (fst m) /\ printed (snd m)) l -> printed (JObject l).
Proof.
  intros H. unfold printed. cbn [jprint]. destruct l as [|j l].
  - apply (jv_object_nil [] white_nil).
  - apply jv_object. apply printed_members; auto. discriminate.
Qed.
Lemma printed_obj l : Forall (fun m => json_plain (fst m) /\ printed (snd m)) l -> printed (obj l).
Proof.
  intros H. apply printed_object. apply Forall_map. eapply Forall_impl; [|exact H]. intros [k j] [Hk Hj]. split; auto. now apply bytes_plain.
Qed.
Lemma printed_jstr s : json_plain s -> printed (jstr s).
Proof. intros H. apply jv_string. apply quoted_string, bytes_plain, H. Qed.
Lemma show_number z : jnumber (show_Z z).
Proof.
  destruct (show_decimal z) as (ds & N & F & Z0 & K).
  assert (I : ds = $"0" \/ exists d r, ds = d :: r /\ digits ds /\ d <> "0"%char).
  { destruct ds as [|d r]; [congruence|]. destruct (Ascii.eqb_spec d "0"%char) as [->|Hd].
    - destruct r as [|d r]; [now left|]. exfalso. eapply Z0. reflexivity.
    - right. exists d, r. repeat split; auto. }
  destruct K as [(_ & -> & _)|(_ & -> & _)].
  - pose proof (jn [] ds [] []) as X. cbn [app] in X. rewrite app_nil_r in X. apply X; auto.
  - pose proof (jn $"-" ds [] []) as X. cbn [app] in X. rewrite app_nil_r in X. apply X; auto.
Qed.
Lemma printed_jint z : printed (jint z).
Proof. apply jv_number, show_number. Qed.
Lemma lit_plain s : forallb (fun c => (32 <=? code c) && negb (ascii_eqb c """"%char) && negb (ascii_eqb c "\"%char)) s = true -> json_plain s.
Proof.
  intros H. apply Forall_forall. intros c Hc. rewrite forallb_forall in H. specialize (H c Hc).
  apply andb_true_iff in H as [H H3]. apply andb_true_iff in H as [H1 H2]. apply Nat.leb_le in H1. split; [exact H1|].
  split; intros ->; discriminate.
Qed.
Ltac plainlit := apply lit_plain; vm_compute; reflexivity.
Ltac members := repeat (apply Forall_cons; [split; cbn [fst snd]; [plainlit|first [apply printed_jint|apply printed_jstr; assumption]]|]); try apply Forall_nil.
Lemma entry_printed e : Forall json_plain (texts_of e) -> printed (entry_json e).
Proof.
  intros H. unfold texts_of in H. inversion H as [|? ? Hp H1]; subst. inversion H1 as [|? ? Hm H2]; subst.
  apply printed_obj. apply Forall_app; split; [members|]. apply Forall_app; split; [|apply Forall_app; split].
  - destruct (_ || _); members.
  - destruct (e_rule e) as [r|]; [|constructor]. inversion H2 as [|? ? Hn H3]; subst. inversion H3 as [|? ? Hc _]; subst. members.
  - members.
Qed.
Lemma view_printed ts V : Forall (fun e => Forall json_plain (texts_of e)) (vw_violations V ++ vw_bugs V) -> printed (view_json ts V).
Proof.
  intros H. apply Forall_app in H as [H1 H2].
  assert (Hl : forall l, Forall (fun e => Forall json_plain (texts_of e)) l -> printed (JArray (map entry_json l))).
  { intros l F. apply printed_array, Forall_map. eapply Forall_impl; [|exact F]. apply entry_printed. }
  apply printed_obj. do 2 (apply Forall_cons; [split; cbn [fst snd]; [plainlit|apply printed_jstr; plainlit]|]).
  apply Forall_cons; [split; cbn [fst snd]; [plainlit|apply printed_jint]|].
  apply Forall_cons; [split; cbn [fst snd]; [plainlit|]|].
  { apply printed_obj. do 2 (apply Forall_cons; [split; cbn [fst snd]; [plainlit|apply printed_jint]|]).
    apply Forall_cons; [split; cbn [fst snd]; [plainlit|]|constructor]. apply printed_array, Forall_map, Forall_forall. intros p _.
    apply printed_obj. members. }
  do 2 (apply Forall_cons; [split; cbn [fst snd]; [plainlit|apply Hl; assumption]|]). constructor.
Qed.
(** The text written. *)
Lemma quoted_bytes s : quoted (map JByte s) = QUOTE :: s ++ [QUOTE].
Proof. unfold quoted. now rewrite unbyte_bytes. Qed.
Lemma entry_eval env A v : reval A (json_writeViolation env v) = Val (jprint (entry_json (entry_of env v))).
Proof.
  unfold json_writeViolation, writeKeyString, writeKeyInt, writeKey, entry_json, obj. rewrite !reval_then.
  replace (negb (v_endLine v =? 0)%Z && negb (v_endColumn v =? 0)%Z) with (negb ((v_endLine v =? 0)%Z || (v_endColumn v =? 0)%Z)) by apply negb_orb.
  cbn [entry_of e_path e_line e_column e_endLine e_endColumn e_rule e_message].
  destruct ((v_endLine v =? 0)%Z || (v_endColumn v =? 0)%Z); cbn [negb]; destruct (v_rule v) as [a|]; rewrite ?reval_then;
    cbn [reval out writeComma oapp app map fst snd r_name r_category r_priority]; f_equal; cbn [jprint map joinc]; unfold jstr, jint;
    cbn [jprint]; rewrite !quoted_bytes; texteq.
Qed.
Lemma loop_eval env A l : forall n, reval A (json_loop env l n)
  = Val (match l with [] => [] | _ => (if n =? 0 then [] else $",") ++ joinc (map (fun v => jprint (entry_json (entry_of env v))) l) end).
Proof.
  induction l as [|v l IH]; intros n; [reflexivity|]. cbn [json_loop]. rewrite !reval_then, entry_eval, IH.
  destruct (n =? 0) eqn:E; cbn [reval out oapp app]; f_equal; cbn [map joinc]; destruct l as [|v' l]; reflexivity.
Qed.
Lemma array_eval env A q l : l = map (entry_of env) (A q) ->
  reval A (RAsk q (fun l => json_loop env l 0)) = Val (joinc (map jprint (map entry_json l))).
Proof.
  intros ->. rewrite reval_ask, loop_eval. rewrite !map_map. destruct (A q); reflexivity.
Qed.
Lemma json_exact env now : forall dup c V o, presents env dup c V -> ruled_view V ->
  (reports (JSONReporter env now) dup c o <-> o = Val (jprint (view_json (to_int now) V) ++ [NL])).
Proof.
  apply (exact_text env (JSONReporter env now) (fun V => jprint (view_json (to_int now) V) ++ [NL])).
  intros A dup c V S R E1 E2 E3 E4 E5 E6. cbn [rp_report JSONReporter]. unfold json_writeHeader, json_writeSummary, writePriority, writeKeyString, writeKeyInt, writeKey.
  rewrite !reval_then. rewrite (array_eval env A QViolations _ E1), (array_eval env A QBugs _ E4), !(reval_priority env A _ V E1 R).
  rewrite <- E5, <- E6. cbn [reval out endl writeComma oapp]. f_equal.
  unfold view_json, obj, priority_json, obj. unfold jstr, jint. cbn [map fst snd]. repeat (progress (cbn [jprint]; cbn [map]; cbn [joinc])).
  rewrite !quoted_bytes. unfold version, homepage. texteq.
Qed.
Lemma json_ub env now : forall dup c V o, presents env dup c V -> ~ ruled_view V -> (reports (JSONReporter env now) dup c o <-> o = UB).
Proof.
  apply unruled_text. intros A dup c S Nv. cbn [rp_report JSONReporter].
  unfold json_writeHeader, json_writeSummary, writePriority, writeKeyString, writeKeyInt, writeKey. rewrite !reval_then, !(reval_priority_ub env A _ Nv). reflexivity.
Qed.
Lemma json_valid ts V : Forall (fun e => Forall json_plain (texts_of e)) (vw_violations V ++ vw_bugs V) ->
  json_text (view_json ts V) (jprint (view_json ts V) ++ [NL]).
Proof.
  intros H. exists [], (jprint (view_json ts V)), [NL]. split; [reflexivity|]. split; [constructor|]. split; [now apply view_printed|].
  constructor; [cbn; auto|constructor].
Qed.
Lemma bytes_inj a b : map JByte a = map JByte b -> a = b.
Proof. revert b. induction a as [|x a IH]; intros [|y b] E; try discriminate; auto. cbn in E. injection E as -> E. f_equal. auto. Qed.
Lemma jstr_inj a b : jstr a = jstr b -> a = b.
Proof. unfold jstr. intros [= E]. now apply bytes_inj. Qed.
Lemma jint_inj a b : jint a = jint b -> a = b.
Proof. unfold jint. intros [= E]. now apply show_inj. Qed.
Definition jfields (j : json) : list (list jchar * json) := match j with JObject l => l | _ => [] end.
Definition jitems (j : json) : list json := match j with JArray l => l | _ => [] end.
Lemma obj_inj l l' : obj l = obj l' -> l = l'.
Proof.
  unfold obj. intros E. apply (f_equal jfields) in E. cbn [jfields] in E. revert l' E. induction l as [|[k j] l IH]; intros [|[k' j'] l'] E; try discriminate; auto.
  cbn [map fst snd] in E. injection E as E1 E2 E3. f_equal; auto. f_equal; auto. now apply bytes_inj.
Qed.
Lemma entry_json_inj e e' : entry_json e = entry_json e' -> with_known_end e = with_known_end e'.
Proof.
  intros E. unfold entry_json in E. apply obj_inj in E. unfold with_known_end.
  destruct (_ || _), (_ || _); destruct (e_rule e) as [r|] eqn:Er, (e_rule e') as [r'|] eqn:Er'; cbn [app] in E; try discriminate E.
  all: repeat match goal with H : _ :: _ = _ :: _ |- _ => injection H; clear H; intros end; try discriminate.
  all: repeat match goal with
         | H : JString (map JByte _) = JString (map JByte _) |- _ => apply jstr_inj in H
         | H : jstr _ = jstr _ |- _ => apply jstr_inj in H
         | H : map JByte _ = map JByte _ |- _ => apply bytes_inj in H
         | H : jint _ = jint _ |- _ => apply jint_inj in H
         | H : show_Z _ = show_Z _ |- _ => apply show_inj in H end.
  all: destruct e, e'; cbn in *; subst; try reflexivity; destruct r, r'; cbn in *; subst; reflexivity.
Qed.
Lemma map_via {A B C} (f : A -> B) (g : A -> C) : (forall a a', f a = f a' -> g a = g a') -> forall l l', map f l = map f l' -> map g l = map g l'.
Proof. intros H. induction l as [|a l IH]; intros [|a' l'] E; try discriminate; auto. cbn in E. injection E as E1 E2. cbn. f_equal; auto. Qed.
Lemma view_json_inj ts V ts' V' : view_json ts V = view_json ts' V' ->
  ts = ts' /\ map with_known_end (vw_violations V) = map with_known_end (vw_violations V')
  /\ map with_known_end (vw_bugs V) = map with_known_end (vw_bugs V')
  /\ vw_files V = vw_files V' /\ vw_filesWithViolations V = vw_filesWithViolations V'.
Proof.
  intros E. unfold view_json in E. apply obj_inj in E.
  assert (X : forall n, nth n (map snd [($"version", jstr $"24.11"); ($"url", jstr $"https://oclint.org"); ($"timestamp", jint ts);
       ($"summary", obj [($"numberOfFiles", jint (vw_files V)); ($"numberOfFilesWithViolations", jint (vw_filesWithViolations V));
                         ($"numberOfViolationsWithPriority", JArray (map (priority_json V) [1; 2; 3]%Z))]);
       ($"violation", JArray (map entry_json (vw_violations V))); ($"clangStaticAnalyzer", JArray (map entry_json (vw_bugs V)))]) JNull
     = nth n (map snd [($"version", jstr $"24.11"); ($"url", jstr $"https://oclint.org"); ($"timestamp", jint ts');
       ($"summary", obj [($"numberOfFiles", jint (vw_files V')); ($"numberOfFilesWithViolations", jint (vw_filesWithViolations V'));
                         ($"numberOfViolationsWithPriority", JArray (map (priority_json V') [1; 2; 3]%Z))]);
       ($"violation", JArray (map entry_json (vw_violations V'))); ($"clangStaticAnalyzer", JArray (map entry_json (vw_bugs V')))]) JNull)
    by (intros n; now rewrite E).
  pose proof (X 2) as X2. pose proof (X 3) as X3. pose proof (X 4) as X4. pose proof (X 5) as X5. cbn [nth map snd] in X2, X3, X4, X5. clear X E.
  apply jint_inj in X2. apply obj_inj in X3.
  pose proof (f_equal (fun l => nth 0 (map snd l) JNull) X3) as Y0. pose proof (f_equal (fun l => nth 1 (map snd l) JNull) X3) as Y1. cbn [nth map snd] in Y0, Y1.
  apply jint_inj in Y0. apply jint_inj in Y1.
  apply (f_equal jitems) in X4. apply (f_equal jitems) in X5. cbn [jitems] in X4, X5.
  repeat split; auto; eapply map_via; try eassumption; apply entry_json_inj.
Qed.
Lemma to_int_wraps z : wraps_to z (to_int z).
Proof.
  unfold wraps_to, to_int, in_int, INT_MIN, INT_MAX. pose proof (Z.mod_pos_bound (z + 2147483648) 4294967296 ltac:(lia)).
  split; [lia|]. exists (- ((z + 2147483648) / 4294967296))%Z. pose proof (Z.div_mod (z + 2147483648) 4294967296 ltac:(lia)). lia.
Qed.
Lemma wraps_det z a b : wraps_to z a -> wraps_to z b -> a = b.
Proof. unfold wraps_to, in_int, INT_MIN, INT_MAX. intros (A & k & ->) (B & k' & E). nia. Qed.

(** ** XML *)
Definition attrs (at_ : list (str * str)) : str := concat (map (fun p => $" " ++ fst p ++ $"=" ++ [QUOTE] ++ snd p ++ [QUOTE]) at_).
Lemma value_plain s : xml_plain s -> xvalue QUOTE s s.
Proof. induction 1 as [|c s (L & Q & LT & AM) H IH]; [constructor|]. apply xv_plain; auto. Qed.
Definition name_okb (n : str) : bool := match n with c :: r => name_start c && forallb name_char r | [] => false end.
Lemma name_ok n : name_okb n = true -> xname n.
Proof.
  destruct n as [|c r]; [discriminate|]. intros H. apply andb_true_iff in H as [H1 H2]. exists c, r. repeat split; auto.
  apply Forall_forall. intros x Hx. rewrite forallb_forall in H2. auto.
Qed.
Lemma attrs_ok at_ : Forall (fun p => xname (fst p) /\ xml_plain (snd p)) at_ -> xattributes at_ (attrs at_).
Proof.
  induction 1 as [|[n v] l [Hn Hv] H IH]; [constructor|]. unfold attrs. cbn [map concat fst snd]. fold (attrs l).
  pose proof (xa_cons [" "%char] n [] [] QUOTE v v l (attrs l)) as X. cbn [app] in X.
  replace (($" " ++ n ++ $"=" ++ [QUOTE] ++ v ++ [QUOTE]) ++ attrs l) with (" "%char :: n ++ "="%char :: QUOTE :: v ++ QUOTE :: attrs l) by texteq.
  apply X; auto using value_plain; try discriminate; try (repeat constructor; cbn; auto); cbn; auto.
Qed.
Lemma element_ok n at_ c tc w : xname n -> Forall (fun p => xname (fst p) /\ xml_plain (snd p)) at_ -> NoDup (map fst at_) -> xwhite w ->
  xcontent c tc -> xelement (Element n at_ c) ($"<" ++ n ++ attrs at_ ++ w ++ $">" ++ tc ++ $"</" ++ n ++ $">").
Proof. intros N A D W C. apply (xe_content n at_ (attrs at_) w c tc []); auto using attrs_ok. constructor. Qed.
Lemma text_content s t : s <> [] -> xtext s t -> xcontent [Text s] t.
Proof. intros N T. pose proof (xc_text s t [] [] N T xc_nil) as X. rewrite app_nil_r in X. apply X. discriminate. Qed.
Lemma elements_content {B} (f : B -> xml) (g : B -> str) l : (forall b, In b l -> xelement (f b) (g b)) -> xcontent (map f l) (concat (map g l)).
Proof. induction l as [|b l IH]; intros H; [constructor|]. cbn [map concat]. constructor; [apply H; now left|]. apply IH. intros x Hx. apply H. now right. Qed.
Definition text_char (c : ascii) : Prop := 32 <= code c /\ c <> "<"%char /\ c <> ">"%char /\ c <> "&"%char.
Lemma text_plain s : Forall text_char s -> xtext s s.
Proof. induction 1 as [|c s (L & A & B & D) H IH]; [constructor|]. apply xt_plain; auto. Qed.
Lemma numchar_bounds c : numchar c -> 45 <= code c <= 57.
Proof. intros [H| ->]; [apply isdigit_bounds in H; lia|cbn; lia]. Qed.
Lemma show_text z : Forall text_char (show_Z z).
Proof.
  eapply Forall_impl; [|apply show_chars]. intros c H. apply numchar_bounds in H. unfold text_char. split; [lia|].
  repeat split; intros ->; vm_compute in H; lia.
Qed.
Lemma show_plain z : xml_plain (show_Z z).
Proof.
  eapply Forall_impl; [|apply show_chars]. intros c H. apply numchar_bounds in H. split; [lia|].
  repeat split; intros ->; vm_compute in H; lia.
Qed.
Lemma lit_xml s : forallb (fun c => (32 <=? code c) && negb (ascii_eqb c """"%char) && negb (ascii_eqb c "<"%char) && negb (ascii_eqb c "&"%char)) s = true -> xml_plain s.
Proof.
  intros H. apply Forall_forall. intros c Hc. rewrite forallb_forall in H. specialize (H c Hc).
  apply andb_true_iff in H as [H H4]. apply andb_true_iff in H as [H H3]. apply andb_true_iff in H as [H1 H2]. apply Nat.leb_le in H1. split; [exact H1|].
  repeat split; intros ->; discriminate.
Qed.
Ltac xplain := first [assumption|apply show_plain|apply lit_xml; vm_compute; reflexivity].
Ltac xattrs := repeat (apply Forall_cons; [split; cbn [fst snd]; [apply name_ok; vm_compute; reflexivity|xplain]|]); try apply Forall_nil.
Ltac names := vm_compute; repeat constructor; cbn; intuition discriminate.
Definition entry_attrs (e : entry) : list (str * str) := match entry_xml e with Element _ l _ => l | _ => [] end.
Definition entry_xml_text (e : entry) : str := $"<violation" ++ attrs (entry_attrs e) ++ $"></violation>".
Lemma entry_xml_ok e : Forall xml_plain (texts_of e) -> xelement (entry_xml e) (entry_xml_text e).
Proof.
  intros H. unfold texts_of in H. inversion H as [|? ? Hp H1]; subst. inversion H1 as [|? ? Hm H2]; subst.
  apply (element_ok $"violation" (entry_attrs e) [] [] []); [apply name_ok; reflexivity| | |constructor|constructor].
  - unfold entry_attrs, entry_xml. apply Forall_app; split; [xattrs|]. apply Forall_app; split; [|apply Forall_app; split].
    + destruct (_ || _); xattrs.
    + destruct (e_rule e) as [r|]; [|constructor]. inversion H2 as [|? ? Hn H3]; subst. inversion H3 as [|? ? Hc _]; subst. xattrs.
    + xattrs.
  - unfold entry_attrs, entry_xml. destruct (_ || _), (e_rule e); cbn [app map fst]; names.
Qed.
Lemma xml_entry_eval env A v : reval A (xml_writeViolation env v) = Val (entry_xml_text (entry_of env v)).
Proof.
  unfold xml_writeViolation, writeViolationAttribute, entry_xml_text, entry_attrs, entry_xml. rewrite !reval_then.
  replace (negb (v_endLine v =? 0)%Z && negb (v_endColumn v =? 0)%Z) with (negb ((v_endLine v =? 0)%Z || (v_endColumn v =? 0)%Z)) by apply negb_orb.
  cbn [entry_of e_path e_line e_column e_endLine e_endColumn e_rule e_message].
  destruct ((v_endLine v =? 0)%Z || (v_endColumn v =? 0)%Z); cbn [negb]; destruct (v_rule v) as [a|]; rewrite ?reval_then;
    cbn [reval out oapp app map fst snd r_name r_category r_priority]; f_equal; unfold attrs; cbn [map concat fst snd]; texteq.
Qed.
Definition property_text (name : str) (z : Z) : str := $"<property name=" ++ [QUOTE] ++ name ++ [QUOTE] ++ $">" ++ show_Z z ++ $"</property>".
Lemma property_ok name z : xml_plain name -> xelement (property_xml name z) (property_text name z).
Proof.
  intros H. replace (property_text name z) with ($"<" ++ $"property" ++ attrs [($"name", name)] ++ [] ++ $">" ++ show_Z z ++ $"</" ++ $"property" ++ $">").
  - apply element_ok; [apply name_ok; reflexivity|xattrs|names|constructor|]. apply text_content; [apply show_nonempty|]. apply text_plain, show_text.
  - unfold property_text, attrs. cbn [map concat fst snd]. texteq.
Qed.
Definition summary_text (V : view) : str :=
  property_text $"number of files" (vw_files V) ++ property_text $"files with violations" (vw_filesWithViolations V)
  ++ property_text $"number of priority 1 violations" (count_of 1 V) ++ property_text $"number of priority 2 violations" (count_of 2 V)
  ++ property_text $"number of priority 3 violations" (count_of 3 V).
Definition xmlHead : str :=
  $"<?xml version=" ++ [QUOTE] ++ $"1.0" ++ [QUOTE] ++ $" encoding=" ++ [QUOTE] ++ $"UTF-8" ++ [QUOTE].
Definition simple (n content : str) : str := $"<" ++ n ++ $">" ++ content ++ $"</" ++ n ++ $">".
Lemma simple_ok n c tc : xname n -> xcontent c tc -> xelement (Element n [] c) (simple n tc).
Proof. intros N C. apply (element_ok n [] c tc []); auto; constructor. Qed.
Definition view_xml_text (date : str) (V : view) : str :=
  $"<oclint" ++ attrs [($"version", $"24.11"); ($"url", $"https://oclint.org")] ++ $">"
  ++ (simple $"datetime" date ++ simple $"summary" (summary_text V)
      ++ simple $"violations" (concat (map entry_xml_text (vw_violations V)))
      ++ simple $"clangstaticanalyzer" (concat (map entry_xml_text (vw_bugs V)))) ++ $"</oclint>".
Lemma xml_valid date V : Forall text_char date -> date <> [] ->
  Forall (fun e => Forall xml_plain (texts_of e)) (vw_violations V ++ vw_bugs V) ->
  xml_text (view_xml date V) (xmlHead ++ $" ?>" ++ view_xml_text date V ++ [NL]).
Proof.
  intros Hd Nd H. apply Forall_app in H as [H1 H2].
  exists [" "%char], [], (view_xml_text date V), [NL]. split; [constructor; [cbn; auto|constructor]|]. split; [constructor|]. split; [constructor; [cbn; auto|constructor]|].
  split; [|reflexivity]. unfold view_xml, view_xml_text.
  apply (element_ok $"oclint" [($"version", $"24.11"); ($"url", $"https://oclint.org")] _ _ []); [apply name_ok; reflexivity|xattrs|names|constructor|].
  apply xc_element; [apply simple_ok; [apply name_ok; reflexivity|apply text_content; auto using text_plain]|].
  apply xc_element; [apply simple_ok; [apply name_ok; reflexivity|]|].
  { unfold summary_text. do 4 (apply xc_element; [apply property_ok; xplain|]).
    match goal with |- xcontent [_] ?t => rewrite <- (app_nil_r t) end. apply xc_element; [apply property_ok; xplain|constructor]. }
  rewrite Forall_forall in H1, H2.
  apply xc_element; [apply simple_ok; [apply name_ok; reflexivity|apply elements_content; intros; apply entry_xml_ok; auto]|].
  match goal with |- xcontent [_] ?t => rewrite <- (app_nil_r t) end.
  apply xc_element; [apply simple_ok; [apply name_ok; reflexivity|apply elements_content; intros; apply entry_xml_ok; auto]|constructor].
Qed.
Definition written_date (t : tm) : str :=
  firstn 27 (pad0 4 (tm_year t + 1900) ++ $"-" ++ pad0 2 (tm_mon t) ++ $"-" ++ pad0 2 (tm_mday t) ++ $"T"
             ++ pad0 2 (tm_hour t) ++ $":" ++ pad0 2 (tm_min t) ++ $":" ++ pad0 2 (tm_sec t) ++ $"Z").
Lemma summary_eval env A V c : vw_violations V = map (entry_of env) (A QViolations) -> ruled_view V ->
  vw_files V = numberOfFiles c -> vw_filesWithViolations V = numberOfFilesWithViolations c ->
  reval A (xml_writeSummary env c) = Val (simple $"summary" (summary_text V)).
Proof.
  intros E1 R E5 E6. unfold xml_writeSummary, writeSummaryProperty. rewrite !reval_then, !(reval_priority env A _ V E1 R), <- E5, <- E6.
  cbn [reval out oapp]. f_equal. unfold simple, summary_text, property_text. texteq.
Qed.
Lemma xml_exact env t : in_intb (tm_year t + 1900) = true -> forall dup c V o, presents env dup c V -> ruled_view V ->
  (reports (XMLReporter env (Some t)) dup c o <-> o = Val (xmlHead ++ $" ?>" ++ view_xml_text (written_date t) V ++ [NL])).
Proof.
  intros Y. apply (exact_text env (XMLReporter env (Some t)) (fun V => xmlHead ++ $" ?>" ++ view_xml_text (written_date t) V ++ [NL])).
  intros A dup c V S R E1 E2 E3 E4 E5 E6. cbn [rp_report XMLReporter]. unfold xml_writeHeader, writeDatetime. rewrite Y, !reval_then.
  rewrite (summary_eval env A V c E1 R E5 E6). rewrite !reval_ask.
  rewrite (each_lines env A _ entry_xml_text QViolations _ E1) by (intros; apply xml_entry_eval).
  rewrite (each_lines env A _ entry_xml_text QBugs _ E4) by (intros; apply xml_entry_eval).
  cbn [reval out endl oapp]. f_equal. unfold view_xml_text. fold (written_date t). unfold xmlHead, simple, attrs, version, homepage. cbn [map concat fst snd].
  texteq.
Qed.
Lemma xml_ub env t : in_intb (tm_year t + 1900) = true -> forall dup c V o, presents env dup c V -> ~ ruled_view V ->
  (reports (XMLReporter env (Some t)) dup c o <-> o = UB).
Proof.
  intros Y. apply unruled_text. intros A dup c S Nv. cbn [rp_report XMLReporter].
  unfold xml_writeHeader, writeDatetime, xml_writeSummary, writeSummaryProperty. rewrite Y, !reval_then, !(reval_priority_ub env A _ Nv). reflexivity.
Qed.
(** Fixed-width numbers. *)
Lemma value_zeros k ds : value_of_digits (repeat "0"%char k ++ ds) = value_of_digits ds.
Proof.
  induction k as [|k IH]; [reflexivity|]. cbn [repeat app value_of_digits]. rewrite IH. change (Z.of_nat (code "0")) with 48%Z. lia.
Qed.
Lemma pad0_width k n : (0 <= n < 10 ^ Z.of_nat k)%Z -> 1 <= k -> numeral_of_width k n (pad0 k n).
Proof.
  intros H K. unfold pad0. rewrite Z.abs_eq by lia. destruct (n <? 0)%Z eqn:E; [apply Z.ltb_lt in E; lia|]. cbn [app length].
  rewrite Nat.sub_0_r. destruct (show_nonneg_spec n) as (N & F & W); [lia|].
  assert (L : length (show_nonneg n) <= k).
  { destruct (value_length (show_nonneg n) F N) as [[_ L]|L]; [intros d r; apply show_nonneg_head; lia|lia|]. rewrite W in L.
    assert (X : (10 ^ (Z.of_nat (length (show_nonneg n)) - 1) < 10 ^ Z.of_nat k)%Z) by lia. apply (Z.pow_lt_mono_r_iff 10) in X; lia. }
  split; [rewrite app_length, repeat_length; lia|]. split; [|now rewrite value_zeros].
  apply Forall_app. split; auto. apply Forall_forall. intros c Hc. apply repeat_spec in Hc. now subst.
Qed.
Lemma width_length k n t : numeral_of_width k n t -> length t = k. Proof. now intros []. Qed.
Lemma written_date_ok m t : broken_down m t -> valid_moment m -> date_text (with_month m (m_month m - 1)) (written_date t).
Proof.
  intros (E1 & E2 & E3 & E4 & E5 & E6) (V1 & V2 & V3 & V4 & V5 & V6). unfold written_date. rewrite E1, E2, E3, E4, E5, E6.
  replace (m_year m - 1900 + 1900)%Z with (m_year m) by lia.
  pose proof (pad0_width 4 (m_year m) ltac:(cbn; lia) ltac:(lia)) as P1. pose proof (pad0_width 2 (m_month m - 1) ltac:(cbn; lia) ltac:(lia)) as P2.
  pose proof (pad0_width 2 (m_day m) ltac:(cbn; lia) ltac:(lia)) as P3. pose proof (pad0_width 2 (m_hour m) ltac:(cbn; lia) ltac:(lia)) as P4.
  pose proof (pad0_width 2 (m_minute m) ltac:(cbn; lia) ltac:(lia)) as P5. pose proof (pad0_width 2 (m_second m) ltac:(cbn; lia) ltac:(lia)) as P6.
  exists (pad0 4 (m_year m)), (pad0 2 (m_month m - 1)), (pad0 2 (m_day m)), (pad0 2 (m_hour m)), (pad0 2 (m_minute m)), (pad0 2 (m_second m)).
  cbn [with_month m_year m_month m_day m_hour m_minute m_second]. repeat (split; [assumption|]).
  apply firstn_all2. rewrite !app_length. rewrite (width_length _ _ _ P1), (width_length _ _ _ P2), (width_length _ _ _ P3), (width_length _ _ _ P4), (width_length _ _ _ P5), (width_length _ _ _ P6). vm_compute. lia.
Qed.
Lemma app_length_inj {A} (a a' b b' : list A) : length a = length a' -> a ++ b = a' ++ b' -> a = a' /\ b = b'.
Proof.
  revert a'. induction a as [|x a IH]; intros [|x' a'] L E; try discriminate; auto. cbn in *. injection E as -> E. injection L as L.
  destruct (IH a' L E) as [-> ->]. auto.
Qed.
Lemma date_unique m m' t : date_text m t -> date_text m' t -> m = m'.
Proof.
  intros (y & mo & d & h & mi & s & (L1 & _ & V1) & (L2 & _ & V2) & (L3 & _ & V3) & (L4 & _ & V4) & (L5 & _ & V5) & (L6 & _ & V6) & ->).
  intros (y' & mo' & d' & h' & mi' & s' & (L1' & _ & V1') & (L2' & _ & V2') & (L3' & _ & V3') & (L4' & _ & V4') & (L5' & _ & V5') & (L6' & _ & V6') & E).
  apply app_length_inj in E as [-> E]; [|congruence]. apply app_inv_head in E.
  apply app_length_inj in E as [-> E]; [|congruence]. apply app_inv_head in E.
  apply app_length_inj in E as [-> E]; [|congruence]. apply app_inv_head in E.
  apply app_length_inj in E as [-> E]; [|congruence]. apply app_inv_head in E.
  apply app_length_inj in E as [-> E]; [|congruence]. apply app_inv_head in E.
  apply app_length_inj in E as [-> E]; [|congruence].
  destruct m, m'; cbn in *. congruence.
Qed.
Lemma digit_text s : Forall (fun c => isdigit c = true) s -> Forall text_char s.
Proof.
  apply Forall_impl. intros c H. apply isdigit_bounds in H. unfold text_char. split; [lia|]. repeat split; intros ->; vm_compute in H; lia.
Qed.
Lemma date_chars m t : date_text m t -> Forall text_char t /\ t <> [].
Proof.
  intros (y & mo & d & h & mi & s & (L1 & F1 & V1) & (L2 & F2 & V2) & (L3 & F3 & V3) & (L4 & F4 & V4) & (L5 & F5 & V5) & (L6 & F6 & V6) & ->). split.
  - assert (C : forall x : str, forallb (fun c => (32 <=? code c) && negb (ascii_eqb c "<"%char) && negb (ascii_eqb c ">"%char) && negb (ascii_eqb c "&"%char)) x = true -> Forall text_char x).
    { intros x H. apply Forall_forall. intros c Hc. rewrite forallb_forall in H. specialize (H c Hc).
      apply andb_true_iff in H as [H H4]. apply andb_true_iff in H as [H H3]. apply andb_true_iff in H as [H1 H2]. apply Nat.leb_le in H1. split; [exact H1|].
      repeat split; intros ->; discriminate. }
    repeat (apply Forall_app; split); auto using digit_text; apply C; reflexivity.
  - destruct y; [discriminate|discriminate].
Qed.
Lemma in_year m t : broken_down m t -> valid_moment m -> in_intb (tm_year t + 1900) = true.
Proof.
  intros (-> & _) (V1 & _). unfold in_intb, INT_MIN, INT_MAX. apply andb_true_iff. split; apply Z.leb_le; lia.
Qed.
Lemma entry_xml_inj e e' : entry_xml e = entry_xml e' -> with_known_end e = with_known_end e'.
Proof.
  intros E. unfold entry_xml in E. unfold with_known_end.
  destruct (_ || _), (_ || _); destruct (e_rule e) as [r|] eqn:Er, (e_rule e') as [r'|] eqn:Er'; cbn [app] in E; try discriminate E.
  all: injection E; clear E; intros; try discriminate.
  all: repeat match goal with H : show_Z _ = show_Z _ |- _ => apply show_inj in H end.
  all: destruct e, e'; cbn in *; subst; try reflexivity; destruct r, r'; cbn in *; subst; reflexivity.
Qed.
Lemma view_xml_inj d V d' V' : view_xml d V = view_xml d' V' ->
  d = d' /\ map with_known_end (vw_violations V) = map with_known_end (vw_violations V')
  /\ map with_known_end (vw_bugs V) = map with_known_end (vw_bugs V')
  /\ vw_files V = vw_files V' /\ vw_filesWithViolations V = vw_filesWithViolations V'.
Proof.
  intros E. unfold view_xml, property_xml in E. injection E as E1 E2 E3 E4 E5 E6 E7 E8.
  apply show_inj in E2. apply show_inj in E3. repeat split; auto; eapply map_via; try eassumption; apply entry_xml_inj.
Qed.

(** ** PMD *)
Lemma escape_text m : printable m -> xtext m (xmlEscape m).
Proof.
  induction 1 as [|c m Hc H IH]; [constructor|]. unfold xmlEscape. cbn [flat_map]. fold (xmlEscape m).
  assert (Ent : forall e, In (c, e) entities -> xtext (c :: m) ((("&"%char :: e) ++ [";"%char]) ++ xmlEscape m)).
  { intros e He. rewrite <- app_assoc. cbn [app]. now apply xt_entity. }
  unfold ascii_eqb. destruct (Ascii.eqb_spec c "<"%char) as [->|N1]; [apply (Ent $"lt"); cbn; auto 10|].
  destruct (Ascii.eqb_spec c ">"%char) as [->|N2]; [apply (Ent $"gt"); cbn; auto 10|].
  destruct (Ascii.eqb_spec c QUOTE) as [->|N3]; [apply (Ent $"quot"); cbn; auto 10|].
  destruct (Ascii.eqb_spec c "&"%char) as [->|N4]; [apply (Ent $"amp"); cbn; auto 10|].
  destruct (Ascii.eqb_spec c "'"%char) as [->|N5]; [apply (Ent $"apos"); cbn; auto 10|].
  apply xt_plain; auto. destruct Hc as [Hc|[->| ->]]; cbn; auto.
Qed.
Lemma xtext_app a ta b tb : xtext a ta -> xtext b tb -> xtext (a ++ b) (ta ++ tb).
Proof.
  intros H Hb. induction H; cbn [app]; auto; [constructor; auto|]. rewrite <- app_assoc. cbn [app]. constructor; auto.
Qed.
Lemma nl_text n : xtext (repeat NL n) (repeat NL n).
Proof. induction n; cbn [repeat]; constructor; auto; try discriminate. right. cbn. auto. Qed.
Definition rule_attrs (r : option rulefact) : list (str * str) :=
  match r with
  | Some r => [($"priority", show_Z (r_priority r)); ($"rule", r_name r); ($"ruleset", r_category r)]
  | None => [] end.
Definition pmd_attrs (e : entry) : list (str * str) :=
  [($"begincolumn", show_Z (e_column e)); ($"endcolumn", show_Z (e_endColumn e)); ($"beginline", show_Z (e_line e)); ($"endline", show_Z (e_endLine e))].
Definition pmd_file (p : entry * option rulefact) : xml := match pmd_xml p with x :: _ => x | [] => Text [] end.
Definition pmd_file_text (p : entry * option rulefact) : str :=
  let '(e, r) := p in
  $"<" ++ $"file" ++ attrs [($"name", e_path e)] ++ [] ++ $">"
   ++ ([NL] ++ (($"<" ++ $"violation" ++ attrs (pmd_attrs e ++ rule_attrs r) ++ $" " ++ $">" ++ ([NL] ++ xmlEscape (e_message e) ++ [NL]) ++ $"</" ++ $"violation" ++ $">") ++ [NL]))
   ++ $"</" ++ $"file" ++ $">".
Definition pmd_text (p : entry * option rulefact) : str := pmd_file_text p ++ [NL; NL].
Definition pmd_plain (p : entry * option rulefact) : Prop :=
  xml_plain (e_path (fst p)) /\ printable (e_message (fst p)) /\ (forall r, snd p = Some r -> xml_plain (r_name r) /\ xml_plain (r_category r)).
Lemma pmd_file_ok p : pmd_plain p -> xelement (pmd_file p) (pmd_file_text p).
Proof.
  destruct p as [e r]. intros (Hp & Hm & Hr). cbn [fst snd] in *. unfold pmd_file, pmd_file_text. cbn [pmd_xml].
  apply element_ok; [apply name_ok; reflexivity|xattrs|names|constructor|].
  apply (xc_text [NL] [NL]); [discriminate|apply (nl_text 1)| |intros x l' [= <- _] (s & E); discriminate].
  apply xc_element; [|apply text_content; [discriminate|apply (nl_text 1)]].
  apply (element_ok $"violation" (pmd_attrs e ++ rule_attrs r) _ _ $" "); [apply name_ok; reflexivity| | |constructor; [cbn; auto|constructor]|].
  - apply Forall_app. split; [unfold pmd_attrs; xattrs|]. destruct r as [r|]; [|constructor]. destruct (Hr r eq_refl). unfold rule_attrs. xattrs.
  - destruct r as [r|]; cbn [pmd_attrs rule_attrs app map fst]; names.
  - apply text_content; [discriminate|]. apply (xtext_app [NL] [NL]); [apply (nl_text 1)|]. apply xtext_app; [now apply escape_text|apply (nl_text 1)].
Qed.
Lemma pmd_content l : Forall pmd_plain l -> xcontent (flat_map pmd_xml l) (concat (map pmd_text l)).
Proof.
  induction 1 as [|p l Hp H IH]; [constructor|]. cbn [map concat]. unfold pmd_text at 1. rewrite <- app_assoc.
  replace (flat_map pmd_xml (p :: l)) with (pmd_file p :: Text [NL; NL] :: flat_map pmd_xml l) by (destruct p; reflexivity).
  apply xc_element; [now apply pmd_file_ok|]. apply xc_text; [discriminate|apply (nl_text 2)|exact IH|].
  intros x l' E. destruct l as [|[e' r'] l]; [discriminate|]. cbn in E. injection E as <- _. intros (s & E). discriminate.
Qed.
Definition view_pmd_text (V : view) : str :=
  xmlHead ++ $"?>" ++ [NL] ++ ($"<" ++ $"pmd" ++ attrs [($"version", $"oclint-24.11")] ++ [] ++ $">" ++ concat (map pmd_text (pmd_findings V)) ++ $"</" ++ $"pmd" ++ $">").
Lemma pmd_valid V : Forall pmd_plain (pmd_findings V) -> xml_text (view_pmd V) (view_pmd_text V).
Proof.
  intros H. exists [], [NL], ($"<" ++ $"pmd" ++ attrs [($"version", $"oclint-24.11")] ++ [] ++ $">" ++ concat (map pmd_text (pmd_findings V)) ++ $"</" ++ $"pmd" ++ $">"), [].
  split; [constructor|]. split; [constructor; [cbn; auto|constructor]|]. split; [constructor|]. split; [|rewrite app_nil_r; reflexivity].
  apply element_ok; [apply name_ok; reflexivity|xattrs|names|constructor|]. now apply pmd_content.
Qed.
Lemma pmd_entry_eval env A v d : reval A (pmd_writeViolation v d >>> endl)
  = Val (pmd_text (entry_of env v, option_map (fun d => {| r_name := pd_name d; r_category := pd_category d; r_priority := pd_priority d |}) d)).
Proof.
  unfold pmd_writeViolation. rewrite !reval_then. unfold pmd_text, pmd_file_text, pmd_attrs, attrs. cbn [entry_of e_path e_line e_column e_endLine e_endColumn e_message].
  destruct d as [d|]; cbn [option_map rule_attrs r_name r_category r_priority].
  - unfold pmdrule_write. rewrite !reval_then. cbn [reval out endl oapp map concat fst snd app]. f_equal. texteq.
  - cbn [reval out endl oapp map concat fst snd app]. f_equal. texteq.
Qed.
Lemma pmd_exact env : forall dup c V o, presents env dup c V -> (reports (PMDReporter env) dup c o <-> o = Val (view_pmd_text V)).
Proof.
  intros dup c V o P. destruct (presents_answers env dup c V P) as (A & S & E1 & E2 & E3 & E4 & E5 & E6).
  rewrite (reval_iff dup c A _ o S). cbn [rp_report PMDReporter]. rewrite !reval_then, !reval_ask.
  rewrite (each_lines env A _ (fun e => pmd_text (e, clang_rule $"compiler error" 1)) QErrors _ E2) by (intros; apply (pmd_entry_eval env)).
  rewrite (each_lines env A _ (fun e => pmd_text (e, clang_rule $"compiler warning" 2)) QWarnings _ E3) by (intros; apply (pmd_entry_eval env)).
  rewrite (each_lines env A _ (fun e => pmd_text (e, clang_rule $"clang static analyzer" 2)) QBugs _ E4) by (intros; apply (pmd_entry_eval env)).
  rewrite (each_lines env A _ (fun e => pmd_text (e, option_map pmd_rule (e_rule e))) QViolations _ E1).
  2:{ intros v Hv. rewrite (pmd_entry_eval env). cbn [entry_of e_rule]. now destruct (v_rule v). }
  cbn [reval out endl oapp].
  match goal with |- o = Val ?x <-> _ => replace x with (view_pmd_text V); [reflexivity|] end.
  unfold view_pmd_text, xmlHead, pmd_findings, attrs, version. rewrite !map_app, !concat_app, !map_map. cbn [map concat fst snd]. texteq.
Qed.
Lemma pmd_findings_inj V V' : view_pmd V = view_pmd V' ->
  map (fun p => (place_and_message (fst p), e_endLine (fst p), e_endColumn (fst p), snd p)) (pmd_findings V)
  = map (fun p => (place_and_message (fst p), e_endLine (fst p), e_endColumn (fst p), snd p)) (pmd_findings V').
Proof.
  unfold view_pmd. intros E. injection E as E. revert E. generalize (pmd_findings V) (pmd_findings V'). intros l.
  induction l as [|[e r] l IH]; intros [|[e' r'] l'] E; [reflexivity|discriminate|discriminate|].
  cbn [flat_map pmd_xml app] in E. injection E as E1 E2 E3 E4 E5 E6 E7 E8. cbn [map fst snd]. f_equal; [|now apply IH].
  unfold place_and_message. apply app_inj_tail in E7 as [E7 _].
  repeat match goal with H : show_Z _ = show_Z _ |- _ => apply show_inj in H end.
  destruct r as [r|], r' as [r'|]; try discriminate; cbn in *.
  - injection E6 as E9 E10 E11. apply show_inj in E9. destruct r, r'. cbn in *. congruence.
  - congruence.
Qed.

(** ** HTML *)
Definition html_pre (head : str) : str :=
  $"<!DOCTYPE html><html>" ++ head ++ $"<body><h1>OCLint Report</h1><h2>Summary</h2><table><thead><tr><th>Total Files</th><th>Files with Violations</th>"
  ++ $"<th>Priority 1</th><th>Priority 2</th><th>Priority 3</th>"
  ++ $"<th>Compiler Errors</th><th>Compiler Warnings</th>" ++ $"<th>Clang Static Analyzer</th></tr></thead><tbody>".
Definition html_mid : str := $"</tbody></table><h2>Details</h2>" ++ html_tableHead.
Definition html_post (now : str) : str :=
  $"</tbody></table><hr /><p>" ++ now ++ $"| Generated with <a href='https://oclint.org'>OCLint v24.11</a>.</p></body></html>" ++ [NL].
Definition html_text (head now : str) (V : view) : str :=
  html_pre head ++ summary_row V ++ html_mid ++ concat (map row (html_cells V)) ++ html_post now.
Lemma html_page_text head now V : html_page head now V = html_text head now V.
Proof.
  unfold html_page, html_text, html_pre, html_post. rewrite <- !app_assoc. reflexivity.
Qed.
Lemma html_any env A q f g l : l = map (entry_of env) (A q) -> (forall v, In v (A q) -> reval A (f v) = Val (g (entry_of env v))) ->
  reval A (ifAny q (RAsk q (forEach f))) = Val (concat (map g l)).
Proof.
  intros E H. unfold ifAny. rewrite reval_ask, has_list. destruct (A q) as [|v l0] eqn:Eq; cbn [is_nil negb].
  - rewrite E. reflexivity.
  - rewrite reval_ask. rewrite (each_lines env A f g q l); [reflexivity|now rewrite Eq|]. rewrite Eq. exact H.
Qed.
Lemma size_eval env A q l : l = map (entry_of env) (A q) -> reval A (askSize q) = Val (show_Z (Z.of_nat (length l))).
Proof. intros ->. unfold askSize. rewrite reval_ask, map_length. reflexivity. Qed.
Lemma html_exact head now env : forall dup c V o, presents env dup c V -> ruled_view V ->
  (reports (HTMLReporter head now env) dup c o <-> o = Val (html_text head now V)).
Proof.
  apply exact_text. intros A dup c V S R E1 E2 E3 E4 E5 E6. cbn [rp_report HTMLReporter]. rewrite !reval_then.
  rewrite (html_any env A QErrors _ (fun e => row (fixed_cells $"compiler error" $"cmplr-error" $"error" e)) _ E2).
  2:{ intros v _. unfold html_diagnostic, row, fixed_cells, cell, place_cell. cbn [reval out entry_of e_path e_line e_column e_message map concat fst snd]. f_equal. texteq. }
  rewrite (html_any env A QWarnings _ (fun e => row (fixed_cells $"compiler warning" $"cmplr-warning" $"warning" e)) _ E3).
  2:{ intros v _. unfold html_diagnostic, row, fixed_cells, cell, place_cell. cbn [reval out entry_of e_path e_line e_column e_message map concat fst snd]. f_equal. texteq. }
  rewrite (html_any env A QBugs _ (fun e => row (fixed_cells $"clang static analyzer" $"checker-bug" $"checker bug" e)) _ E4).
  2:{ intros v _. unfold html_checkerBug, row, fixed_cells, cell, place_cell. cbn [reval out entry_of e_path e_line e_column e_message map concat fst snd]. f_equal. texteq. }
  rewrite reval_ask. rewrite (each_lines env A _ (fun e => row (finding_cells e)) QViolations _ E1).
  2:{ intros v Hv. destruct (ruled_in E1 R v Hv) as (a & Ea). unfold html_writeViolation, withRule, row, finding_cells, cell, place_cell. rewrite reval_then.
      cbn [entry_of e_rule e_path e_line e_column e_message]. rewrite Ea. cbn [reval out oapp r_name r_category r_priority map concat fst snd]. f_equal. texteq. }
  unfold writeSummaryTable. rewrite !reval_then, !(reval_priority env A _ V E1 R).
  rewrite (size_eval env A QErrors _ E2), (size_eval env A QWarnings _ E3), (size_eval env A QBugs _ E4), <- E5, <- E6.
  cbn [reval out endl oapp]. f_equal. unfold html_text, html_cells.
  rewrite !map_app, !concat_app, !map_map.
  generalize (concat (map (fun e => row (finding_cells e)) (vw_violations V))). intros t1.
  generalize (concat (map (fun e => row (fixed_cells $"compiler error" $"cmplr-error" $"error" e)) (vw_errors V))). intros t2.
  generalize (concat (map (fun e => row (fixed_cells $"compiler warning" $"cmplr-warning" $"warning" e)) (vw_warnings V))). intros t3.
  generalize (concat (map (fun e => row (fixed_cells $"clang static analyzer" $"checker-bug" $"checker bug" e)) (vw_bugs V))). intros t4.
  unfold html_pre, html_mid, html_post, summary_row, row, cell, version, homepage. cbn [map concat fst snd]. generalize html_tableHead. intros th. texteq.
Qed.
Lemma html_ub head now env : forall dup c V o, presents env dup c V -> ~ ruled_view V -> (reports (HTMLReporter head now env) dup c o <-> o = UB).
Proof.
  apply unruled_text. intros A dup c S Nv. cbn [rp_report HTMLReporter]. unfold writeSummaryTable. rewrite !reval_then, !(reval_priority_ub env A _ Nv). reflexivity.
Qed.
Definition cell_ok (p : str * str) : Prop := ~ In ">"%char (fst p) /\ ~ In "<"%char (snd p).
Lemma cell_inj p p' r r' : cell_ok p -> cell_ok p' -> cell (fst p) (snd p) ++ r = cell (fst p') (snd p') ++ r' -> p = p' /\ r = r'.
Proof.
  destruct p as [o t], p' as [o' t']. unfold cell_ok, cell. cbn [fst snd]. intros [A B] [A' B'] E. rewrite <- !app_assoc in E. apply app_inv_head in E.
  cbv [lit list_ascii_of_string] in E. cbn [app] in E. apply split_at in E as [-> E]; auto. apply split_at in E as [-> E]; auto. injection E as ->. auto.
Qed.
Lemma row_inj l l' r r' : Forall cell_ok l -> Forall cell_ok l' -> row l ++ r = row l' ++ r' -> l = l' /\ r = r'.
Proof.
  intros O O' E. unfold row in E. rewrite <- !app_assoc in E. apply app_inv_head in E.
  apply (list_inj (fun p => cell (fst p) (snd p)) (fun p => p) cell_ok (fun s => exists z, s = $"</tr>" ++ z) cell_inj) in E as [E1 E2]; auto.
  - rewrite !map_id in E1. split; auto. now apply app_inv_head in E2.
  - intros p z s _ (y & ->) X. unfold cell in X. rewrite <- !app_assoc in X. cbv [lit list_ascii_of_string] in X. cbn [app] in X. discriminate.
  - eexists. reflexivity.
  - eexists. reflexivity.
Qed.
Inductive kind := KViolation | KError | KWarning | KBug.
Definition kinded (V : view) : list (kind * entry) :=
  map (pair KViolation) (vw_violations V) ++ map (pair KError) (vw_errors V) ++ map (pair KWarning) (vw_warnings V) ++ map (pair KBug) (vw_bugs V).
Definition kcells (p : kind * entry) : list (str * str) :=
  match fst p with
  | KViolation => finding_cells (snd p)
  | KError => fixed_cells $"compiler error" $"cmplr-error" $"error" (snd p)
  | KWarning => fixed_cells $"compiler warning" $"cmplr-warning" $"warning" (snd p)
  | KBug => fixed_cells $"clang static analyzer" $"checker-bug" $"checker bug" (snd p)
  end.
Definition kkey (p : kind * entry) :=
  (fst p, place_and_message (snd p), match fst p with KViolation => e_rule (snd p) | _ => None end).
Lemma place_cell_inj e e' : place_cell e = place_cell e' -> e_line e = e_line e' /\ e_column e = e_column e'.
Proof.
  unfold place_cell. intros E. cbv [lit list_ascii_of_string] in E. cbn [app] in E. apply split_num in E as [-> E]; try reflexivity; try discriminate.
  apply show_inj in E. auto.
Qed.
Lemma kcells_inj p p' : (fst p = KViolation -> e_rule (snd p) <> None) -> (fst p' = KViolation -> e_rule (snd p') <> None) ->
  kcells p = kcells p' -> kkey p = kkey p'.
Proof.
  destruct p as [k e], p' as [k' e']. cbn [fst snd]. intros N N' E. unfold kcells in E. cbn [fst snd] in E. unfold kkey, place_and_message. cbn [fst snd].
  destruct k, k'; unfold finding_cells, fixed_cells in E;
    try (destruct (e_rule e) as [r|] eqn:Er; [|now destruct (N eq_refl)]); try (destruct (e_rule e') as [r'|] eqn:Er'; [|now destruct (N' eq_refl)]);
    try discriminate E.
  - apply (f_equal (fun l => (nth 0 l ([], []), nth 1 l ([], []), nth 2 l ([], []), nth 3 l ([], []), nth 4 l ([], []), nth 5 l ([], [])))) in E. cbn [nth] in E.
    injection E as E1 E2 E3 E4 _ E5 E6. apply place_cell_inj in E2 as [-> ->]. apply show_inj in E5. destruct r, r'. cbn in *. congruence.
  - injection E as E1 E2 E3. apply place_cell_inj in E2 as [-> ->]. congruence.
  - injection E as E1 E2 E3. apply place_cell_inj in E2 as [-> ->]. congruence.
  - injection E as E1 E2 E3. apply place_cell_inj in E2 as [-> ->]. congruence.
Qed.
Lemma html_cells_kinded V : html_cells V = map kcells (kinded V).
Proof. unfold html_cells, kinded. rewrite !map_app, !map_map. reflexivity. Qed.
Definition keykind {A B} (p : kind * A * B) : kind := fst (fst p).
Definition kind_eqb (a b : kind) : bool := match a, b with KViolation, KViolation | KError, KError | KWarning, KWarning | KBug, KBug => true | _, _ => false end.
Lemma filter_kind k k' (l : list entry) : filter (fun p => kind_eqb k (keykind p)) (map kkey (map (pair k') l)) = if kind_eqb k k' then map kkey (map (pair k') l) else [].
Proof.
  induction l as [|e l IH]; [cbn; now destruct (kind_eqb k k')|]. cbn [map filter]. unfold keykind at 1, kkey at 1. cbn [fst snd].
  destruct (kind_eqb k k'); rewrite IH; reflexivity.
Qed.
Lemma kinded_inj V V' : map kkey (kinded V) = map kkey (kinded V') ->
  map place_and_rule (vw_violations V) = map place_and_rule (vw_violations V')
  /\ map place_and_message (vw_errors V) = map place_and_message (vw_errors V')
  /\ map place_and_message (vw_warnings V) = map place_and_message (vw_warnings V')
  /\ map place_and_message (vw_bugs V) = map place_and_message (vw_bugs V').
Proof.
  intros E.
  assert (F : forall k, filter (fun p => kind_eqb k (keykind p)) (map kkey (kinded V)) = filter (fun p => kind_eqb k (keykind p)) (map kkey (kinded V'))) by (intros; now rewrite E).
  unfold kinded in F. pose proof (F KViolation) as F1. pose proof (F KError) as F2. pose proof (F KWarning) as F3. pose proof (F KBug) as F4. clear F E.
  rewrite !map_app, !filter_app, !filter_kind in F1, F2, F3, F4. cbn [kind_eqb app] in F1, F2, F3, F4. rewrite !app_nil_r in F1, F2, F3.
  rewrite !map_map in F1, F2, F3, F4.
  split; [|split; [|split]]; eapply map_via; try eassumption; cbn; unfold kkey, place_and_message, place_and_rule; cbn; intros a a' [= ]; congruence.
Qed.
Lemma cells_plain V : Forall html_plain (vw_violations V ++ vw_errors V ++ vw_warnings V ++ vw_bugs V) -> Forall (Forall cell_ok) (html_cells V).
Proof.
  intros H. apply Forall_app in H as [H1 H]. apply Forall_app in H as [H2 H]. apply Forall_app in H as [H3 H4].
  assert (P : forall e, html_plain e -> ~ In "<"%char (e_path e) /\ ~ In "<"%char (e_message e)).
  { intros e He. unfold html_plain, texts_of in He. inversion He as [|? ? Hp Hq]; subst. inversion Hq; subst. auto. }
  assert (C : forall e, ~ In "<"%char (place_cell e)).
  { intros e. unfold place_cell. rewrite !in_app_iff. intros [X|[X|X]]; [|destruct X as [X|[]]; discriminate|]; eapply show_without; try exact X; try reflexivity; discriminate. }
  assert (L : forall s, existsb (fun c => ascii_eqb c "<"%char || ascii_eqb c ">"%char) s = false -> ~ In "<"%char s /\ ~ In ">"%char s).
  { intros s E. split; intros X; [assert (Y : existsb (fun c => ascii_eqb c "<"%char || ascii_eqb c ">"%char) s = true) by (apply existsb_exists; exists "<"%char; auto)|
      assert (Y : existsb (fun c => ascii_eqb c "<"%char || ascii_eqb c ">"%char) s = true) by (apply existsb_exists; exists ">"%char; auto)]; congruence. }
  assert (G : forall n c t l, existsb (fun c => ascii_eqb c "<"%char || ascii_eqb c ">"%char) n = false ->
     existsb (fun c => ascii_eqb c "<"%char || ascii_eqb c ">"%char) ($" class='" ++ c ++ $"'") = false ->
     existsb (fun c => ascii_eqb c "<"%char || ascii_eqb c ">"%char) t = false -> Forall html_plain l -> Forall (Forall cell_ok) (map (fixed_cells n c t) l)).
  { intros n c t l Ln Lc Lt Hl. apply Forall_map. eapply Forall_impl; [|exact Hl]. intros e He. destruct (P e He) as [Hp Hm].
    apply L in Ln as [Ln _], Lc as [_ Lc], Lt as [Lt _]. unfold fixed_cells. repeat (apply Forall_cons; [split; cbn [fst snd]; auto|]). constructor. }
  unfold html_cells. apply Forall_app; split; [|apply Forall_app; split; [|apply Forall_app; split]]; try (apply G; auto).
  apply Forall_map. eapply Forall_impl; [|exact H1]. intros e He. unfold finding_cells. destruct (e_rule e) as [r|] eqn:Er; [|constructor].
  destruct (P e He) as [Hp Hm]. unfold html_plain, texts_of in He. rewrite Er in He. inversion He as [|? ? _ Hq]; subst. inversion Hq as [|? ? _ Hs]; subst.
  inversion Hs as [|? ? Hn Ht]; subst. inversion Ht as [|? ? Hc _]; subst.
  repeat (apply Forall_cons; [split; cbn [fst snd]; auto|]); [| |constructor].
  - rewrite !in_app_iff. intros [X|[X|X]]; [cbn in X; repeat (destruct X as [X|X]; [discriminate|]); destruct X| |cbn in X; repeat (destruct X as [X|X]; [discriminate|]); destruct X].
    eapply show_without; try exact X; try reflexivity; discriminate.
  - intros X. eapply show_without; try exact X; try reflexivity; discriminate.
Qed.
Lemma html_read head now V V' : ruled_view V -> ruled_view V' ->
  Forall html_plain (vw_violations V ++ vw_errors V ++ vw_warnings V ++ vw_bugs V) ->
  Forall html_plain (vw_violations V' ++ vw_errors V' ++ vw_warnings V' ++ vw_bugs V') ->
  html_text head now V = html_text head now V' ->
  map place_and_rule (vw_violations V) = map place_and_rule (vw_violations V')
  /\ map place_and_message (vw_errors V) = map place_and_message (vw_errors V')
  /\ map place_and_message (vw_warnings V) = map place_and_message (vw_warnings V')
  /\ map place_and_message (vw_bugs V) = map place_and_message (vw_bugs V')
  /\ vw_files V = vw_files V' /\ vw_filesWithViolations V = vw_filesWithViolations V'.
Proof.
  intros R R' P P' E. unfold html_text in E. apply app_inv_head in E.
  assert (SO : forall V, Forall cell_ok [([], show_Z (vw_files V)); ([], show_Z (vw_filesWithViolations V));
       ($" class='priority1'", show_Z (count_of 1 V)); ($" class='priority2'", show_Z (count_of 2 V)); ($" class='priority3'", show_Z (count_of 3 V));
       ($" class='cmplr-error'", show_Z (Z.of_nat (length (vw_errors V))));
       ($" class='cmplr-warning'", show_Z (Z.of_nat (length (vw_warnings V))));
       ($" class='checker-bug'", show_Z (Z.of_nat (length (vw_bugs V))))]).
  { intros W. repeat (apply Forall_cons; [split; cbn [fst snd]; [vm_compute; intuition discriminate|apply show_without; [reflexivity|discriminate]]|]). apply Forall_nil. }
  unfold summary_row in E. apply row_inj in E as [ES E]; auto. apply app_inv_head in E.
  apply (list_inj row (fun l => l) (Forall cell_ok) (fun s => exists z, s = $"</tbody>" ++ z) row_inj) in E as [E _]; auto using cells_plain.
  - rewrite !map_id, !html_cells_kinded in E.
    assert (K : map kkey (kinded V) = map kkey (kinded V')).
    { assert (Q : forall W, ruled_view W -> Forall (fun p => fst p = KViolation -> e_rule (snd p) <> None) (kinded W)).
      { intros W HW. unfold kinded. apply Forall_app; split; [|apply Forall_app; split; [|apply Forall_app; split]]; apply Forall_map.
        - eapply Forall_impl; [|exact HW]. intros a Ha _. exact Ha.
        - apply Forall_forall. intros x _ D. discriminate.
        - apply Forall_forall. intros x _ D. discriminate.
        - apply Forall_forall. intros x _ D. discriminate. }
      pose proof (Q V R) as Q1. pose proof (Q V' R') as Q2. clear - E Q1 Q2. revert Q1 Q2 E. generalize (kinded V) (kinded V'). intros l.
      induction l as [|p l IH]; intros [|p' l'] Q1 Q2 E; try discriminate; auto. cbn [map] in E. injection E as E1 E2. inversion Q1; inversion Q2; subst.
      cbn [map]. f_equal; auto. apply kcells_inj; auto. }
    destruct (kinded_inj V V' K) as (A & B & C & D). repeat (split; [assumption|]).
    apply (f_equal (fun l => (nth 0 l ([], []), nth 1 l ([], [])))) in ES. cbn [nth] in ES. injection ES as X Y. split; now apply show_inj.
  - intros l z s _ (y & ->) X. unfold row in X. rewrite <- app_assoc in X. cbv [lit list_ascii_of_string] in X. cbn [app] in X. discriminate.
  - eexists. reflexivity.
  - eexists. reflexivity.
Qed.
