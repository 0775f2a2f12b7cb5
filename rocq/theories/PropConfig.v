(** * Properties C08-C12: rule configuration, identifiers, registry *)
From Verif Require Import Base BaseFacts ModelResults ModelConfig SpecConfig ProofConfig.

(** ** C08 *)
Theorem c08_last_value_wins : forall ops c k v d,
  run_cfg ops cfg_fresh = Val c -> last_value ops k v ->
  stringForKey c k d = Val (v, c)
  /\ hasKey c k = true
  /\ intForKey c k 0%Z = obind (atoi v) (fun n => Val (n, c)).
Proof.
  intros ops c k v d H L. destruct (run_cfg_get ops c H k) as [G _]. apply G in L.
  rewrite stringForKey_get, hasKey_get, intForKey_get, L. auto.
Qed.

Theorem c08_default_when_absent : forall ops c k d n,
  run_cfg ops cfg_fresh = Val c -> no_value ops k ->
  stringForKey c k d = Val (d, c) /\ hasKey c k = false /\ intForKey c k n = Val (n, c).
Proof.
  intros ops c k d n H L. destruct (run_cfg_get ops c H k) as [_ G]. apply G in L.
  rewrite stringForKey_get, hasKey_get, intForKey_get, L. auto.
Qed.

(** Every key is in one of the two cases, and the last value is unique. *)
Theorem c08_every_key_covered : forall ops k,
  ((exists v, last_value ops k v) \/ no_value ops k).
Proof. exact value_or_none. Qed.

(** Lookups with a default are safe in every state and change nothing. *)
Theorem c08_lookups_safe_and_read_only : forall (c : cfg) k d,
  (exists v, stringForKey c k d = Val (v, c))
  /\ (forall n, (exists z, intForKey c k n = Val (z, c)) \/ (exists v, stringForKey c k d = Val (v, c) /\ atoi v = UB)).
Proof.
  intros c k d. rewrite stringForKey_get. split; [eauto|].
  intros n. rewrite intForKey_get. destruct (cfg_get c k) as [v|]; [|eauto].
  destruct (atoi v) eqn:E; simpl; eauto.
  unfold atoi in E. destruct (in_intb _); discriminate.
Qed.

Theorem c08_history_without_numbers_is_safe : forall ops,
  (forall k d, ~ In (LookupInt k d) ops) -> exists c, run_cfg ops cfg_fresh = Val c.
Proof. exact run_cfg_safe. Qed.

Example c08_case :
  let ops := [Add $"A" $"1"; Clear; Add $"A" $"2"; LookupString $"B" $"x"; Add $"A" $"30"; LookupInt $"A" 7] in
  exists c, run_cfg ops cfg_fresh = Val c /\ last_value ops $"A" $"30" /\ no_value ops $"B"
            /\ intForKey c $"A" 0 = Val (30%Z, c).
Proof.
  eexists. split; [reflexivity|]. split; [|split].
  - exists [Add $"A" $"1"; Clear; Add $"A" $"2"; LookupString $"B" $"x"], [LookupInt $"A" 7].
    split; [reflexivity|]. split; [intros v H|intros H]; repeat destruct H as [H|H]; try discriminate; auto.
  - exists [Add $"A" $"1"; Clear], [Add $"A" $"2"; LookupString $"B" $"x"; Add $"A" $"30"; LookupInt $"A" 7].
    split; [reflexivity|]. split; [right; exists [Add $"A" $"1"]; reflexivity|].
    split; [intros v H|intros H]; repeat destruct H as [H|H]; try discriminate; auto.
  - reflexivity.
Qed.

(** ** C09 *)
Theorem c09_direct_lookup_undefined_when_cleared : forall ops c k,
  run_cfg (ops ++ [Clear]) cfg_fresh = Val c ->
  valueForKey c k = UB /\ valueForKey cfg_fresh k = UB.
Proof.
  intros ops c k H. rewrite run_cfg_app in H.
  destruct (run_cfg ops cfg_fresh) as [c0| |]; try discriminate. simpl in H.
  inversion H; subst. split; [|reflexivity]. destruct c0; reflexivity.
Qed.

Theorem c09_direct_lookup_inserts_empty : forall ops c k,
  run_cfg ops cfg_fresh = Val c -> no_value ops k -> c <> None ->
  exists c', valueForKey c k = Val ([], c')
             /\ hasKey c k = false /\ hasKey c' k = true
             /\ (forall d, stringForKey c' k d = Val ([], c'))
             /\ (forall n, intForKey c' k n = Val (0%Z, c'))
             /\ (forall k' d, k' <> k -> exists w, stringForKey c k' d = Val (w, c) /\ stringForKey c' k' d = Val (w, c')).
Proof.
  intros ops c k H L Hn. destruct c as [m|]; [|congruence].
  destruct (run_cfg_get ops (Some m) H k) as [_ G]. apply G in L. simpl in L.
  exists (Some (smap_set m k [])). unfold valueForKey. rewrite L.
  assert (F : forall k', cfg_get (Some (smap_set m k [])) k' = if str_eqb k k' then Some [] else smap_find m k')
    by (intros; apply smap_find_set).
  split; auto. split; [simpl; now rewrite L|].
  split; [rewrite hasKey_get, F, str_eqb_refl; auto|].
  split; [intros; rewrite stringForKey_get, F, str_eqb_refl; auto|].
  split; [intros; rewrite intForKey_get, F, str_eqb_refl; reflexivity|].
  intros k' d Hk. rewrite !stringForKey_get, F.
  destruct (str_eqb k k') eqn:E; [apply str_eqb_eq in E; congruence|].
  eexists. split; reflexivity.
Qed.

Example c09_case : exists c, run_cfg [Add $"A" $"1"] cfg_fresh = Val c /\ c <> None
  /\ no_value [Add $"A" $"1"] $"B".
Proof.
  eexists. split; [reflexivity|]. split; [discriminate|].
  exists [], [Add $"A" $"1"]. split; [reflexivity|]. split; auto.
  split; [intros v H|intros H]; repeat destruct H as [H|H]; try discriminate; auto.
Qed.

(** ** C10 *)
Theorem c10_threshold_text_read_as_its_number : forall s z,
  reads_as s z -> in_int z -> atoi s = Val z.
Proof. exact atoi_reads. Qed.

Theorem c10_text_without_number_means_zero : forall s,
  (forall z, ~ reads_as s z) -> atoi s = Val 0%Z.
Proof. exact atoi_no_number. Qed.

Theorem c10_number_read_is_unique : forall s z1 z2, reads_as s z1 -> reads_as s z2 -> z1 = z2.
Proof. exact reads_as_unique. Qed.

(** Writing any [int] in decimal as the value of a key gives a threshold of that [int];
    text may follow. *)
Theorem c10_decimal_roundtrip : forall ops c k n rest d,
  run_cfg ops cfg_fresh = Val c -> last_value ops k (show_Z n ++ rest) -> in_int n ->
  (forall x r, rest = x :: r -> isdigit x = false) ->
  intForKey c k d = Val (n, c).
Proof.
  intros ops c k n rest d H L Hn Hr. destruct (run_cfg_get ops c H k) as [G _]. apply G in L.
  rewrite intForKey_get, L. rewrite (atoi_reads _ n); auto. now apply show_Z_reads.
Qed.

Theorem c10_out_of_range_undefined : forall s z, reads_as s z -> ~ in_int z -> atoi s = UB.
Proof. exact atoi_overflows. Qed.

Example c10_case :
  reads_as $" -12px" (-12) /\ atoi $" -12px" = Val (-12)%Z /\ atoi $"px" = Val 0%Z
  /\ show_Z 200 = $"200" /\ atoi $"99999999999" = UB.
Proof.
  split; [|repeat split].
  exists $" ", $"-", $"12", $"px". split; [reflexivity|]. split; [repeat constructor|].
  split; [discriminate|]. split; [repeat constructor|]. split.
  - intros c r [= <- <-]. reflexivity.
  - right. right. split; reflexivity.
Qed.

(** ** C11 *)
Theorem c11_identifier_letters_capitalised_at_word_starts : forall name out,
  spells name 0 name out <-> out = identifier name.
Proof.
  intros name out. split.
  - intros H. eapply spells_det; eauto. apply identifier_spells.
  - intros ->. apply identifier_spells.
Qed.

Theorem c11_identifier_same_letters_up_to_case : forall name,
  map toupper (identifier name) = map toupper (filter isalpha name)
  /\ Forall (fun c => isalpha c = true) (identifier name).
Proof.
  intros name. split.
  - eapply spells_letters, identifier_spells.
  - eapply spells_all_letters, identifier_spells.
Qed.

Theorem c11_identifier_starts_upper : forall name c o,
  identifier name = c :: o -> isupper c = true.
Proof.
  intros name c o. apply (spells_head_upper name 0 name); auto.
  - now left.
  - apply identifier_spells.
Qed.

Theorem c11_identifier_fixed_point : forall name, identifier (identifier name) = identifier name.
Proof. exact identifier_idempotent. Qed.

Example c11_case : identifier $"avoid branching (2nd) if" = $"AvoidBranchingNdIf"
  /\ identifier $"high npath-complexity" = $"HighNpathComplexity".
Proof. split; vm_compute; reflexivity. Qed.

(** ** C12: [rules] registered in this order from the start. *)
Theorem c12_index_in_range : forall rules i r,
  nth_error rules i = Some r ->
  getRuleAtIndex (fold_left rs_register rules None) (Z.of_nat i) = Val r.
Proof.
  intros rules i r H. rewrite register_all.
  assert (Hi : i < length rules) by (apply nth_error_Some; congruence).
  destruct rules as [|x rules]; [simpl in Hi; lia|].
  unfold getRuleAtIndex, numberOfRules. cbn [app].
  destruct (Z.of_nat i >=? Z.of_nat (length (x :: rules)))%Z eqn:E.
  - apply Z.geb_le in E. lia.
  - replace (Z.of_nat i <? 0)%Z with false by (symmetry; apply Z.ltb_ge; lia).
    rewrite Nat2Z.id. f_equal. now apply nth_error_nth.
Qed.

Theorem c12_number_of_rules : forall rules,
  numberOfRules (fold_left rs_register rules None) = Z.of_nat (length rules).
Proof. intros rules. rewrite register_all. now destruct rules. Qed.

Theorem c12_index_too_large_no_rule : forall rules i,
  (Z.of_nat (length rules) <= i)%Z ->
  getRuleAtIndex (fold_left rs_register rules None) i = Val None.
Proof.
  intros rules i H. unfold getRuleAtIndex. rewrite c12_number_of_rules.
  apply Z.geb_le in H. now rewrite H.
Qed.

Theorem c12_negative_index_never_returns : forall rules i r,
  (i < 0)%Z -> getRuleAtIndex (fold_left rs_register rules None) i <> Val r.
Proof.
  intros rules i r H. unfold getRuleAtIndex. rewrite c12_number_of_rules.
  destruct (i >=? Z.of_nat (length rules))%Z eqn:E.
  - apply Z.geb_le in E. lia.
  - rewrite register_all. destruct rules; [discriminate|].
    replace (i <? 0)%Z with true by (symmetry; apply Z.ltb_lt; lia). discriminate.
Qed.

Example c12_case :
  getRuleAtIndex (fold_left rs_register [Some 4; Some 9] None) 1 = Val (Some 9)
  /\ getRuleAtIndex (fold_left rs_register [Some 4; Some 9] None) 2 = Val None
  /\ getRuleAtIndex (fold_left rs_register [Some 4; Some 9] None) (-1) = Exc $"out_of_range"
  /\ getRuleAtIndex (fold_left rs_register [] None) (-1) = UB.
Proof. repeat split. Qed.

Print Assumptions c08_last_value_wins.
Print Assumptions c08_default_when_absent.
Print Assumptions c09_direct_lookup_inserts_empty.
Print Assumptions c10_threshold_text_read_as_its_number.
Print Assumptions c10_decimal_roundtrip.
Print Assumptions c11_identifier_letters_capitalised_at_word_starts.
Print Assumptions c11_identifier_fixed_point.
Print Assumptions c12_index_in_range.
