(** * Running OCLintConfig.cmake: lemmas for C146 and C147 *)
From Verif Require Import Base BaseFacts ModelScaffold ModelCMake ModelCMakeTexts ModelCMakeConfig ProofCMake.

(** ** Which variables a command leaves alone *)
(** An argument that always stands for this word. *)
Definition plain_word (a : argument) : option str :=
  let w := flat_map (fun s => match s with Lit c => [c] | Ref _ => [] end) (a_text a) in
  if a_quoted a || existsb (fun s => match s with Lit _ => false | Ref _ => true end) (a_text a)
     || existsb (ascii_eqb ";"%char) w || is_nil w then None else Some w.
Definition single (a : argument) : bool := a_quoted a || match plain_word a with Some _ => true | None => false end.
Definition differs (k : str) (a : argument) : bool := match plain_word a with Some w => negb (str_eqb w k) | None => false end.
Definition spares (k : str) (c : command) : bool :=
  if existsb (str_eqb (c_name c)) [$"set"; $"llvm_map_components_to_libnames"; $"find_program"] then
    match c_args c with a :: _ => differs k a | [] => true end
  else if str_eqb (c_name c) $"string" then
    match c_args c with a :: b :: p :: o :: _ => single a && single b && single p && differs k o | _ => false end
  else if str_eqb (c_name c) $"enable_testing" then negb (str_eqb k $"CMAKE_TESTING_ENABLED")
  else true.
Lemma word_value : forall a w v r, plain_word a = Some w -> values v (a :: r) = (false, w) :: values v r.
Proof.
  intros [qu t] w v r H. unfold plain_word in H. cbn [a_quoted a_text] in H. destruct qu; [discriminate|]. cbn [orb] in H.
  destruct (existsb _ t) eqn:R; [discriminate|]. cbn [orb] in H. destruct (existsb _ _) eqn:S in H; [discriminate|]. cbn [orb] in H.
  destruct (is_nil _) eqn:N in H; [discriminate|]. injection H as H. unfold values. cbn [flat_map a_quoted a_text].
  assert (E : expand v t = w).
  { rewrite <- H. clear - R. unfold expand. induction t as [|[c|n] t IH]; cbn [existsb flat_map] in *; [reflexivity| |discriminate]. rewrite IH by exact R. reflexivity. }
  rewrite E. rewrite (elements_one w []).
  - reflexivity.
  - intros I. subst w. rewrite <- Bool.not_true_iff_false, existsb_exists in S. apply S. eexists. split; [exact I|reflexivity].
  - subst w. cbn [app]. intros X. rewrite X in N. discriminate.
Qed.
Lemma single_value : forall a v r, single a = true -> exists x, values v (a :: r) = x :: values v r.
Proof.
  intros a v r H. unfold single in H. destruct (a_quoted a) eqn:Q.
  - eexists. unfold values. cbn [flat_map]. rewrite Q. reflexivity.
  - destruct (plain_word a) as [w|] eqn:P; [|discriminate]. eexists. apply word_value, P.
Qed.
Lemma assign_other : forall v x y k, x <> k -> assign v x y k = v k.
Proof. intros v x y k N. unfold assign. destruct (str_eqb k x) eqn:E; [apply str_eqb_eq in E; congruence|reflexivity]. Qed.
Lemma differs_value : forall k a v r, differs k a = true -> exists w, plain_values v (a :: r) = w :: plain_values v r /\ w <> k.
Proof.
  intros k a v r H. unfold differs in H. destruct (plain_word a) as [w|] eqn:P; [|discriminate]. exists w. unfold plain_values. rewrite (word_value a w v r P). split; [reflexivity|].
  apply Bool.negb_true_iff, str_eqb_neq in H. exact H.
Qed.

Definition loads (c : command) : bool := existsb (str_eqb (c_name c)) [$"include"; $"find_package"].
Section Config.
  Variable e : surroundings.
  Variable k : str.
  Definition llvm_keeps : Prop := forall v w, e_llvm e v = Some w -> w k = v k.
  Definition fine (c : command) : Prop := spares k c = true /\ (loads c = true -> llvm_keeps).
  Lemma command_spares : forall c v w, fine c -> config_command e c v = Some w -> w k = v k.
  Proof.
    intros [n l] v w [S llvm] H. unfold config_command in H. unfold spares in S. unfold loads in llvm. cbn [c_name c_args] in *.
    assert (L1 : str_eqb n $"include" = true -> llvm_keeps) by (intros X; apply llvm; cbn [existsb]; rewrite X; reflexivity).
    assert (L2 : str_eqb n $"find_package" = true -> llvm_keeps) by (intros X; apply llvm; cbn [existsb]; rewrite X, Bool.orb_true_r; reflexivity).
    clear llvm.
    assert (One : forall (a : argument) r, l = a :: r -> differs k a = true -> exists x, plain_values v l = x :: plain_values v r /\ x <> k).
    { intros a r -> D. apply differs_value, D. }
    destruct (str_eqb n $"set") eqn:N1.
    { cbn [existsb] in S. rewrite N1 in S. cbn [orb] in S. destruct l as [|a l]; [discriminate|]. destruct (One a l eq_refl S) as (x & E & D). rewrite E in H.
      destruct (existsb _ _); [discriminate|]. injection H as <-. apply assign_other, D. }
    destruct (str_eqb n $"message"); [destruct (plain_values v l) as [|x r]; [discriminate|]; destruct (str_eqb x _); [discriminate|injection H as <-; reflexivity]|].
    destruct (str_eqb n $"include"); [specialize (L1 eq_refl); destruct (plain_values v l) as [|x [|? ?]]; try discriminate; destruct (str_eqb x _); [exact (L1 _ _ H)|discriminate]|].
    destruct (str_eqb n $"find_package"); [specialize (L2 eq_refl); destruct (plain_values v l) as [|x r]; try discriminate; destruct (str_eqb x _); [exact (L2 _ _ H)|discriminate]|].
    destruct (str_eqb n $"string") eqn:N2.
    { apply str_eqb_eq in N2. subst n. cbn [existsb] in S. change (str_eqb $"string" $"llvm_map_components_to_libnames") with false in S.
      change (str_eqb $"string" $"find_program") with false in S. rewrite N1 in S. cbn [orb] in S.
      destruct l as [|a [|b [|p [|o l]]]]; try discriminate. apply andb_true_iff in S as [S So]. apply andb_true_iff in S as [S Sp]. apply andb_true_iff in S as [Sa Sb].
      destruct (single_value a v (b :: p :: o :: l) Sa) as (xa & Ea). destruct (single_value b v (p :: o :: l) Sb) as (xb & Eb). destruct (single_value p v (o :: l) Sp) as (xp & Ep).
      destruct (differs_value k o v l So) as (w' & Eo & D). unfold plain_values in H, Eo. rewrite Ea, Eb, Ep in H. cbn [map] in H. rewrite Eo in H.
      destruct (map snd (values v l)) as [|t r]; [discriminate|]. destruct (_ && _); [|discriminate]. injection H as <-. apply assign_other, D. }
    destruct (str_eqb n $"llvm_map_components_to_libnames") eqn:N3.
    { cbn [existsb] in S. rewrite N3, Bool.orb_true_r in S. cbn [orb] in S. destruct l as [|a l]; [discriminate|]. destruct (One a l eq_refl S) as (x & E & D). rewrite E in H.
      injection H as <-. apply assign_other, D. }
    destruct (str_eqb n $"enable_testing") eqn:N4.
    { cbn [existsb] in S. rewrite N1, N3 in S. apply str_eqb_eq in N4. subst n. change (str_eqb $"enable_testing" $"find_program") with false in S. cbn [orb] in S.
      injection H as <-. apply assign_other. intros <-. discriminate. }
    destruct (str_eqb n $"find_program") eqn:N5.
    { cbn [existsb] in S. rewrite N5, !Bool.orb_true_r in S. destruct l as [|a l]; [discriminate|]. destruct (One a l eq_refl S) as (x & E & D). rewrite E in H.
      destruct (plain_values v l) as [|p [|? ?]]; try discriminate. injection H as <-. destruct (match v x with Some _ => _ | None => _ end); [reflexivity|apply assign_other, D]. }
    match type of H with (if ?c then _ else _) = _ => destruct c end; [injection H as <-; reflexivity|discriminate].
  Qed.
  Lemma block_forall : forall (P : command -> Prop) o cl l d b r, block o cl d l = Some (b, r) -> Forall P l -> Forall P b /\ Forall P r.
  Proof.
    intros P o cl l. induction l as [|c l IH]; intros d b r H F; [discriminate|]. inversion_clear F as [|? ? Pc Fl]. cbn [block] in H.
    assert (G : forall d', option_map (fun br : list command * list command => (c :: fst br, snd br)) (block o cl d' l) = Some (b, r) -> Forall P b /\ Forall P r).
    { intros d' E. destruct (block o cl d' l) as [[b' r']|] eqn:B; [|discriminate]. cbn in E. injection E as <- <-. destruct (IH _ _ _ B Fl). auto. }
    destruct (called cl c); [destruct d; [injection H as <- <-; auto|apply (G _ H)]|apply (G _ H)].
  Qed.
  Lemma branches_forall : forall (P : command -> Prop) l d b, (forall a, P {| c_name := $"if"; c_args := a |}) -> P {| c_name := $"endif"; c_args := [] |} ->
    branches d l = Some b -> Forall P l -> Forall P (i_then b) /\ Forall P (i_else b) /\ Forall P (i_rest b).
  Proof.
    intros P l d b Pi Pe. revert d b. induction l as [|c l IH]; intros d b H F; [discriminate|]. inversion_clear F as [|? ? Pc Fl]. cbn [branches] in H.
    assert (G : forall d', option_map (fun b0 => {| i_then := c :: i_then b0; i_else := i_else b0; i_rest := i_rest b0 |}) (branches d' l) = Some b ->
                Forall P (i_then b) /\ Forall P (i_else b) /\ Forall P (i_rest b)).
    { intros d' E. destruct (branches d' l) as [b'|] eqn:B; [|discriminate]. cbn in E. injection E as <-. cbn [i_then i_else i_rest]. destruct (IH _ _ B Fl) as (A1 & A2 & A3). auto. }
    destruct (called $"endif" c); [destruct d; [injection H as <-; cbn [i_then i_else i_rest]; auto|apply (G _ H)]|].
    destruct (called $"if" c); [apply (G _ H)|].
    destruct (called $"else" c && _).
    { destruct (block _ _ 0 l) as [[b' r']|] eqn:B; [|discriminate]. injection H as <-. cbn [i_then i_else i_rest]. destruct (block_forall P _ _ _ _ _ _ B Fl). auto. }
    destruct (called $"elseif" c && _).
    { destruct (block _ _ 0 l) as [[b' r']|] eqn:B; [|discriminate]. injection H as <-. cbn [i_then i_else i_rest]. destruct (block_forall P _ _ _ _ _ _ B Fl).
      split; [constructor|]. split; [|assumption]. constructor; [apply Pi|]. apply Forall_app. auto. }
    apply (G _ H).
  Qed.
  Lemma run_spares : forall f l v w, Forall fine l -> config_run e f l v = Some w -> w k = v k.
  Proof.
    induction f as [|f IH]; intros l v w F H; [discriminate|]. cbn [config_run] in H. destruct l as [|c l]; [injection H as <-; reflexivity|].
    inversion_clear F as [|? ? Pc Fl]. destruct (str_eqb (c_name c) $"if").
    - destruct (branches 0 l) as [b|] eqn:B; [|discriminate].
      destruct (branches_forall fine l 0 b (fun a => conj eq_refl (fun x => False_ind _ (Bool.diff_false_true x))) (conj eq_refl (fun x => False_ind _ (Bool.diff_false_true x))) B Fl) as (A1 & A2 & A3).
      destruct (condition _ _ _) as [x|]; [|discriminate]. destruct (config_run e f (if x then _ else _) v) as [v'|] eqn:R; [|discriminate].
      rewrite (IH _ _ _ A3 H). apply (IH _ _ _ (match x as x' return Forall _ (if x' then i_then b else i_else b) with true => A1 | false => A2 end) R).
    - destruct (config_command e c v) as [v'|] eqn:C; [|discriminate]. rewrite (IH _ _ _ Fl H). exact (command_spares _ _ _ Pc C).
  Qed.
End Config.

(** ** Going down a file *)
Definition next_item (l : list command) : option (list command * list command) :=
  match l with
  | [] => None
  | c :: rest => if str_eqb (c_name c) $"if" then match branches 0 rest with Some b => Some (i_then b ++ i_else b, i_rest b) | None => None end else Some ([c], rest)
  end.
Fixpoint skip_items (n : nat) (l : list command) : option (list command * list command) :=
  match n with
  | O => Some ([], l)
  | S n => match next_item l with
           | Some (p, r) => match skip_items n r with Some (p', r') => Some (p ++ p', r') | None => None end
           | None => None
           end
  end.
Section Walk.
  Variable e : surroundings.
  Definition sparing (k : str) (l : list command) : bool := forallb (spares k) l.
  Lemma sparing_forall : forall k l, (existsb loads l = true -> llvm_keeps e k) -> sparing k l = true -> Forall (fine e k) l.
  Proof.
    intros k l L H. apply Forall_forall. unfold sparing in H. rewrite forallb_forall in H. intros c I. split; [apply H, I|].
    intros X. apply L, existsb_exists. exists c. auto.
  Qed.
  Lemma config_if : forall f c rest b v w, str_eqb (c_name c) $"if" = true -> branches 0 rest = Some b -> config_run e f (c :: rest) v = Some w ->
    exists f' x v', condition (e_files e) v (values v (c_args c)) = Some x /\ config_run e f' (if x then i_then b else i_else b) v = Some v'
      /\ config_run e f' (i_rest b) v' = Some w.
  Proof.
    intros [|f] c rest b v w N B H; [discriminate|]. cbn [config_run] in H. rewrite N, B in H. destruct (condition _ _ _) as [x|]; [|discriminate].
    destruct (config_run e f (if x then _ else _) v) as [v'|] eqn:R; [|discriminate]. exists f, x, v'. auto.
  Qed.
  Lemma config_step : forall f c rest v w, str_eqb (c_name c) $"if" = false -> config_run e f (c :: rest) v = Some w ->
    exists f' v', config_command e c v = Some v' /\ config_run e f' rest v' = Some w.
  Proof.
    intros [|f] c rest v w N H; [discriminate|]. cbn [config_run] in H. rewrite N in H. destruct (config_command e c v) as [v'|] eqn:C; [|discriminate]. exists f, v'. auto.
  Qed.
  Lemma config_skip : forall n l p r f v w, skip_items n l = Some (p, r) -> config_run e f l v = Some w ->
    exists f' v', config_run e f' r v' = Some w /\ forall k, (existsb loads p = true -> llvm_keeps e k) -> sparing k p = true -> v' k = v k.
  Proof.
    induction n as [|n IH]; intros l p r f v w S H; cbn [skip_items] in S.
    - injection S as <- <-. exists f, v. auto.
    - destruct (next_item l) as [[p1 r1]|] eqn:N; [|discriminate]. destruct (skip_items n r1) as [[p' r']|] eqn:S'; [|discriminate]. injection S as <- <-.
      assert (X : exists f1 v1, config_run e f1 r1 v1 = Some w /\ forall k, (existsb loads p1 = true -> llvm_keeps e k) -> sparing k p1 = true -> v1 k = v k).
      { destruct l as [|c l]; [discriminate|]. cbn [next_item] in N. destruct (str_eqb (c_name c) $"if") eqn:I.
        - destruct (branches 0 l) as [b|] eqn:B; [|discriminate]. injection N as <- <-. destruct (config_if _ _ _ _ _ _ I B H) as (f1 & x & v1 & _ & R1 & R2).
          exists f1, v1. split; [exact R2|]. intros k K Sp. apply (sparing_forall k _ K), Forall_app in Sp as [A1 A2]. apply (run_spares e k f1 _ _ _ (match x as x' return Forall _ (if x' then i_then b else i_else b) with true => A1 | false => A2 end) R1).
        - injection N as <- <-. destruct (config_step _ _ _ _ _ I H) as (f1 & v1 & C & R). exists f1, v1. split; [exact R|]. intros k K Sp.
          apply (sparing_forall k _ K) in Sp. inversion_clear Sp as [|? ? Pc _]. exact (command_spares e k _ _ _ Pc C). }
      destruct X as (f1 & v1 & R1 & K1). destruct (IH _ _ _ _ _ _ S' R1) as (f2 & v2 & R2 & K2). exists f2, v2. split; [exact R2|].
      intros k K Sp. unfold sparing in *. rewrite forallb_app in Sp. apply andb_true_iff in Sp as [Sp1 Sp2].
      rewrite existsb_app in K. rewrite (K2 k (fun x => K (proj2 (Bool.orb_true_iff _ _) (or_intror x))) Sp2). exact (K1 k (fun x => K (proj2 (Bool.orb_true_iff _ _) (or_introl x))) Sp1).
  Qed.
  Lemma config_keeps : forall k l f v w, (existsb loads l = true -> llvm_keeps e k) -> sparing k l = true -> config_run e f l v = Some w -> w k = v k.
  Proof. intros k l f v w K S H. exact (run_spares e k f l v w (sparing_forall _ _ K S) H). Qed.
End Walk.

(** ** The parts of the file *)
Definition config_commands : list command := Eval vm_compute in match commands_in OCLintConfig with Some l => l | None => [] end.
Lemma config_commands_are : commands_in OCLintConfig = Some config_commands.
Proof. vm_compute. reflexivity. Qed.
Definition passed (l : list command) (n : nat) : list command := match skip_items n l with Some (p, _) => p | None => [] end.
Definition remaining (l : list command) (n : nat) : list command := match skip_items n l with Some (_, r) => r | None => [] end.
Definition far (l : list command) (n : nat) : bool := match skip_items n l with Some _ => true | None => false end.
Lemma config_at : forall e l n f v w, far l n = true -> config_run e f l v = Some w ->
  exists f' v', config_run e f' (remaining l n) v' = Some w
    /\ forall k, (existsb loads (passed l n) = true -> llvm_keeps e k) -> sparing k (passed l n) = true -> v' k = v k.
Proof.
  intros e l n f v w F H. unfold far, remaining, passed in *. destruct (skip_items n l) as [[p r]|] eqn:S; [|discriminate].
  exact (config_skip e n l p r f v w S H).
Qed.
Lemma plain_words : forall v l ws, map plain_word l = map Some ws -> plain_values v l = ws.
Proof.
  intros v l. induction l as [|a l IH]; intros [|w ws] H; try discriminate; [reflexivity|]. cbn [map] in H. injection H as Ha Hl.
  unfold plain_values. rewrite (word_value a w v l Ha). cbn [map snd]. f_equal. apply IH, Hl.
Qed.
Lemma config_set : forall e l v x y vs, plain_values v l = x :: y :: vs ->
  existsb (fun v => str_eqb v $"CACHE" || str_eqb v $"PARENT_SCOPE") (y :: vs) = false ->
  config_command e {| c_name := $"set"; c_args := l |} v = Some (assign v x (Some (list_of (y :: vs)))).
Proof. intros e l v x y vs P N. unfold config_command. cbn [c_name c_args]. rewrite P, N. reflexivity. Qed.
Lemma assign_same : forall v x y, assign v x y x = y.
Proof. intros v x y. unfold assign. rewrite str_eqb_refl. reflexivity. Qed.
Lemma variable_condition : forall f v k, true_constant k = false -> false_constant k = false ->
  condition f v [(false, k)] = Some (match v k with Some x => negb (false_constant x) | None => false end).
Proof. intros f v k T F. unfold condition. rewrite T, F. reflexivity. Qed.

Definition clang_libraries : list str :=
  [$"clangToolingCore"; $"clangTooling"; $"clangFrontend"; $"clangDriver"; $"clangSerialization"; $"clangParse"; $"clangSema"; $"clangAnalysis";
   $"clangEdit"; $"clangASTMatchers"; $"clangAST"; $"clangLex"; $"clangSupport"; $"clangAPINotes"; $"clangBasic"].
Definition llvm_components : list str :=
  [$"asmparser"; $"bitreader"; $"instrumentation"; $"mcparser"; $"option"; $"support"; $"frontendopenmp"; $"windowsdriver"; $"frontendhlsl"].

Ltac checks := vm_compute; reflexivity.
Ltac noload := let X := fresh in intros X; vm_compute in X; discriminate.
Local Opaque commands_in config_run.
Section Facts.
  Variable e : surroundings.
  Variables v w : variables.
  Hypothesis Run : oclint_config e v = Some w.
  Lemma the_run : config_run e 200 config_commands v = Some w.
  Proof.
    assert (G : forall o n, o = Some config_commands -> match o with Some l => config_run e n l v | None => None end = config_run e n config_commands v) by (intros o n ->; reflexivity).
    rewrite <- (G (commands_in OCLintConfig) 200 config_commands_are). exact Run.
  Qed.
  Lemma config_kept : forall k, llvm_keeps e k -> sparing k config_commands = true -> w k = v k.
  Proof. intros k K S. exact (config_keeps e k _ _ _ _ (fun _ => K) S the_run). Qed.
  (** Down to the item [n], and what it is. *)
  Lemma config_down : forall n, far config_commands n = true -> exists f v', config_run e f (remaining config_commands n) v' = Some w
    /\ forall k, (existsb loads (passed config_commands n) = true -> llvm_keeps e k) -> sparing k (passed config_commands n) = true -> v' k = v k.
  Proof. intros n F. exact (config_at e config_commands n 200 v w F the_run). Qed.
  Lemma config_out : forall b, llvm_keeps e $"EXECUTABLE_OUTPUT_PATH" -> v $"PROJECT_BINARY_DIR" = Some b -> no_semicolon b ->
    w $"EXECUTABLE_OUTPUT_PATH" = Some (b ++ $"/bin").
  Proof.
    intros b Ke Vb Nb. destruct (config_down 10) as (f & v1 & R & K); [checks|].
    assert (E : remaining config_commands 10 = cmd $"set" [u $"EXECUTABLE_OUTPUT_PATH"; u $"${PROJECT_BINARY_DIR}/bin"] :: remaining config_commands 11) by checks.
    rewrite E in R. apply config_step in R as (f2 & v2 & C & R); [|reflexivity].
    assert (Vb1 : v1 $"PROJECT_BINARY_DIR" = Some b) by (rewrite K; [exact Vb|noload|checks]).
    assert (P : plain_values v1 [u $"EXECUTABLE_OUTPUT_PATH"; u $"${PROJECT_BINARY_DIR}/bin"] = [$"EXECUTABLE_OUTPUT_PATH"; b ++ $"/bin"]).
    { unfold plain_values. rewrite (word_value _ $"EXECUTABLE_OUTPUT_PATH") by reflexivity.
      rewrite (values_u v1 $"${PROJECT_BINARY_DIR}/bin" (b ++ $"/bin")).
      - reflexivity.
      - change (val v1 $"${PROJECT_BINARY_DIR}/bin") with (match v1 $"PROJECT_BINARY_DIR" with Some x => x | None => [] end ++ $"/bin"). rewrite Vb1. reflexivity.
      - apply no_semicolon_app; [exact Nb|]. intros I. cbn in I. repeat destruct I as [I|I]; discriminate || contradiction.
      - destruct b; discriminate. }
    unfold cmd in C. rewrite (config_set e _ v1 $"EXECUTABLE_OUTPUT_PATH" (b ++ $"/bin") []) in C; [|exact P|].
    - injection C as <-. rewrite (config_keeps e $"EXECUTABLE_OUTPUT_PATH" (remaining config_commands 11) _ _ _ (fun _ => Ke) ltac:(checks) R).
      rewrite assign_same. change (list_of [b ++ $"/bin"]) with ((b ++ $"/bin") ++ []). rewrite app_nil_r. reflexivity.
    - cbn [existsb]. rewrite Bool.orb_false_r. apply Bool.orb_false_iff. split; apply str_eqb_neq; intros X;
        apply (f_equal (fun l => existsb (ascii_eqb "/"%char) l)) in X; rewrite existsb_app, Bool.orb_true_r in X; discriminate.
  Qed.
  Lemma config_clang : w $"CLANG_LIBRARIES" = Some (list_of clang_libraries).
  Proof.
    destruct (config_down 20) as (f & v1 & R & _); [checks|].
    assert (E : remaining config_commands 20 = cmd $"set" (map u ($"CLANG_LIBRARIES" :: clang_libraries)) :: remaining config_commands 21) by checks.
    rewrite E in R. apply config_step in R as (f2 & v2 & C & R); [|reflexivity]. unfold cmd in C.
    rewrite (config_set e _ v1 $"CLANG_LIBRARIES" $"clangToolingCore" (tl clang_libraries)) in C; [|apply plain_words; reflexivity|checks].
    injection C as <-. rewrite (config_keeps e $"CLANG_LIBRARIES" (remaining config_commands 21) _ _ _ ltac:(noload) ltac:(checks) R). apply assign_same.
  Qed.
  Lemma config_llvm : w $"REQ_LLVM_LIBRARIES" = Some (list_of (e_libnames e llvm_components)).
  Proof.
    destruct (config_down 19) as (f & v1 & R & _); [checks|].
    assert (E : remaining config_commands 19 = cmd $"llvm_map_components_to_libnames" (map u ($"REQ_LLVM_LIBRARIES" :: llvm_components)) :: remaining config_commands 20) by checks.
    rewrite E in R. apply config_step in R as (f2 & v2 & C & R); [|reflexivity]. unfold cmd, config_command in C. cbn [c_name c_args] in C.
    rewrite (plain_words v1 _ ($"REQ_LLVM_LIBRARIES" :: llvm_components)) in C by reflexivity.
    change (Some (assign v1 $"REQ_LLVM_LIBRARIES" (Some (list_of (e_libnames e llvm_components)))) = Some v2) in C.
    injection C as <-. rewrite (config_keeps e $"REQ_LLVM_LIBRARIES" (remaining config_commands 20) _ _ _ ltac:(noload) ltac:(checks) R). apply assign_same.
  Qed.
  (** The part for tests. *)
  Definition test_part : list command := match branches 0 (tl (remaining config_commands 21)) with Some b => i_then b | None => [] end.
  Lemma config_tests : llvm_keeps e $"TEST_BUILD" -> forall x, v $"TEST_BUILD" = Some x -> false_constant x = false ->
    w $"GTEST_LIBS" = Some $"gmock;gtest" /\ w $"CMAKE_TESTING_ENABLED" = Some $"1"
    /\ (llvm_keeps e $"NVIDIA_NVCC_BIN" -> v $"NVIDIA_NVCC_BIN" = None ->
         w $"TEST_CUDA" = Some (if match e_program e $"nvcc" with Some p => negb (false_constant p) | None => false end then $"TRUE" else $"FALSE")).
  Proof.
    intros Kt x Vx Fx. destruct (config_down 21) as (f & v1 & R & K); [checks|].
    set (b := {| i_then := test_part; i_else := []; i_rest := remaining config_commands 22 |}).
    assert (E : remaining config_commands 21 = cmd $"if" [u $"TEST_BUILD"] :: tl (remaining config_commands 21)) by checks.
    rewrite E in R. apply (config_if e f _ _ b) in R as (f2 & y & v2 & C & R1 & R2); [|reflexivity|checks].
    assert (V1 : v1 $"TEST_BUILD" = Some x) by (rewrite K; [exact Vx|intros _; exact Kt|checks]).
    unfold cmd in C. cbn [c_args] in C. rewrite (word_value _ $"TEST_BUILD") in C by reflexivity. change (values v1 []) with (@nil (bool * str)) in C.
    rewrite variable_condition in C by reflexivity. rewrite V1, Fx in C. injection C as <-. cbn [i_then b] in R1. cbn [i_rest b] in R2.
    assert (Last : forall k, sparing k (remaining config_commands 22) = true -> w k = v2 k).
    { intros k S. apply (config_keeps e k (remaining config_commands 22) f2 v2 w); [noload|exact S|exact R2]. }
    split; [|split].
    - destruct (config_at e test_part 3 f2 v1 v2 ltac:(checks) R1) as (f3 & v3 & R3 & _).
      assert (E3 : remaining test_part 3 = cmd $"set" (map u [$"GTEST_LIBS"; $"gmock"; $"gtest"]) :: remaining test_part 4) by checks.
      rewrite E3 in R3. apply config_step in R3 as (f4 & v4 & C4 & R4); [|reflexivity]. unfold cmd in C4.
      rewrite (config_set e _ v3 $"GTEST_LIBS" $"gmock" [$"gtest"]) in C4; [|apply plain_words; reflexivity|checks]. injection C4 as <-.
      rewrite Last by checks. rewrite (config_keeps e $"GTEST_LIBS" (remaining test_part 4) _ _ _ ltac:(noload) ltac:(checks) R4). apply assign_same.
    - destruct (config_at e test_part 0 f2 v1 v2 ltac:(checks) R1) as (f3 & v3 & R3 & _).
      assert (E3 : remaining test_part 0 = cmd $"enable_testing" [] :: remaining test_part 1) by checks.
      rewrite E3 in R3. apply config_step in R3 as (f4 & v4 & C4 & R4); [|reflexivity].
      change (Some (assign v3 $"CMAKE_TESTING_ENABLED" (Some $"1")) = Some v4) in C4. injection C4 as <-.
      rewrite Last by checks. rewrite (config_keeps e $"CMAKE_TESTING_ENABLED" (remaining test_part 1) _ _ _ ltac:(noload) ltac:(checks) R4). apply assign_same.
    - intros Kn Vn. destruct (config_at e test_part 4 f2 v1 v2 ltac:(checks) R1) as (f3 & v3 & R3 & K3).
      assert (V3 : v3 $"NVIDIA_NVCC_BIN" = None) by (rewrite K3 by (noload || checks); rewrite K; [exact Vn|intros _; exact Kn|checks]).
      assert (E3 : remaining test_part 4 = cmd $"find_program" [u $"NVIDIA_NVCC_BIN"; q $"nvcc"] :: remaining test_part 5) by checks.
      rewrite E3 in R3. apply config_step in R3 as (f4 & v4 & C4 & R4); [|reflexivity].
      assert (P : plain_values v3 [u $"NVIDIA_NVCC_BIN"; q $"nvcc"] = [$"NVIDIA_NVCC_BIN"; $"nvcc"]) by (unfold plain_values; rewrite (word_value _ $"NVIDIA_NVCC_BIN") by reflexivity; reflexivity).
      unfold cmd, config_command in C4. cbn [c_name c_args] in C4. rewrite P in C4. 
      set (found := match e_program e $"nvcc" with Some r => r | None => $"NVIDIA_NVCC_BIN" ++ $"-NOTFOUND" end).
      change (Some (if match v3 $"NVIDIA_NVCC_BIN" with Some y => negb (false_constant y) | None => false end then v3 else assign v3 $"NVIDIA_NVCC_BIN" (Some found)) = Some v4) in C4.
      rewrite V3 in C4. injection C4 as <-.
      set (b5 := {| i_then := [cmd $"message" [u $"STATUS"; q $"Enable tests for CUDA rules."]; cmd $"set" (map u [$"TEST_CUDA"; $"TRUE"])];
                    i_else := [cmd $"set" (map u [$"TEST_CUDA"; $"FALSE"])]; i_rest := [] |}).
      assert (E5 : remaining test_part 5 = cmd $"if" [u $"NVIDIA_NVCC_BIN"] :: tl (remaining test_part 5)) by checks.
      rewrite E5 in R4. apply (config_if e f4 _ _ b5) in R4 as (f5 & z & v5 & C5 & R5 & R6); [|reflexivity|checks].
      assert (Z : z = match e_program e $"nvcc" with Some p => negb (false_constant p) | None => false end).
      { unfold cmd in C5. cbn [c_args] in C5. rewrite (word_value _ $"NVIDIA_NVCC_BIN") in C5 by reflexivity. change (values (assign v3 $"NVIDIA_NVCC_BIN" (Some found)) []) with (@nil (bool * str)) in C5.
        rewrite variable_condition in C5 by reflexivity. rewrite assign_same in C5. injection C5 as <-. unfold found. destruct (e_program e $"nvcc"); reflexivity. }
      assert (V6 : v2 $"TEST_CUDA" = v5 $"TEST_CUDA").
      { apply (config_keeps e $"TEST_CUDA" [] f5 v5 v2); [noload|reflexivity|exact R6]. }
      rewrite Last by checks. rewrite V6, <- Z. clear C5 Z. destruct z; cbn [i_then i_else b5] in R5.
      + apply config_step in R5 as (f6 & v6 & _ & R5); [|reflexivity]. apply config_step in R5 as (f7 & v7 & C7 & R7); [|reflexivity]. unfold cmd in C7.
        rewrite (config_set e _ v6 $"TEST_CUDA" $"TRUE" []) in C7; [|apply plain_words; reflexivity|checks]. injection C7 as <-.
        rewrite (config_keeps e $"TEST_CUDA" [] _ _ _ ltac:(noload) ltac:(checks) R7). apply assign_same.
      + apply config_step in R5 as (f7 & v7 & C7 & R7); [|reflexivity]. unfold cmd in C7.
        rewrite (config_set e _ _ $"TEST_CUDA" $"FALSE" []) in C7; [|apply plain_words; reflexivity|checks]. injection C7 as <-.
        rewrite (config_keeps e $"TEST_CUDA" [] _ _ _ ltac:(noload) ltac:(checks) R7). apply assign_same.
  Qed.
End Facts.
