(** * Reading and running the build files: lemmas for C146 *)
From Verif Require Import Base ModelScaffold ModelCMake ModelCMakeTexts.

(** ** Reading *)
Lemma lexes_app : forall a b x, lexes x (a ++ b) =
  (fst (lexes (fst (lexes x a)) b), snd (lexes x a) ++ snd (lexes (fst (lexes x a)) b)).
Proof.
  induction a as [|c a IH]; intros b x; cbn [app lexes].
  - cbn. destruct (lexes x b). reflexivity.
  - destruct (lex x c) as [x1 l1]. rewrite IH. destruct (lexes x1 a) as [x2 l2]. cbn [fst snd].
    destruct (lexes x2 b) as [x3 l3]. cbn [fst snd]. rewrite app_assoc. reflexivity.
Qed.
Lemma lexes_one : forall x c, lexes x [c] = (fst (lex x c), snd (lex x c)).
Proof. intros x c. cbn [lexes]. destruct (lex x c). rewrite app_nil_r. reflexivity. Qed.
(** Another line. *)
Lemma commands_more : forall t l s l', commands_in t = Some l -> commands_in s = Some l' ->
  commands_in (t ++ NL :: s) = Some (l ++ l').
Proof.
  intros t l s l' T S. unfold commands_in in *. rewrite lexes_app.
  destruct (lexes Between t) as [x1 l1]. cbn [fst snd].
  assert (E : x1 = Between \/ x1 = Behind \/ x1 = Comment) by (destruct x1; auto; discriminate).
  assert (L : lexes x1 (NL :: s) = lexes Between s).
  { cbn [lexes]. destruct E as [->|[->| ->]]; cbn; destruct (lexes Between s); reflexivity. }
  rewrite L. assert (l1 = l) by (destruct E as [->|[->| ->]]; congruence). subst l1.
  destruct (lexes Between s) as [x2 l2]. cbn [fst snd]. destruct x2; congruence.
Qed.

Definition bare (t : str) : argument := {| a_quoted := false; a_text := map Lit t |}.
(** Letters, digits, underscores, dashes and dots. *)
Definition name_char (c : ascii) : bool := is_word c || ascii_eqb c "-"%char || ascii_eqb c "."%char.
Definition name_like (s : str) : Prop := s <> [] /\ Forall (fun c => name_char c = true) s.

Lemma name_char_facts : forall c, name_char c = true ->
  is_blank c = false /\ ascii_eqb c NL = false /\ ascii_eqb c ")"%char = false /\ ascii_eqb c "#"%char = false
  /\ ascii_eqb c """"%char = false /\ ascii_eqb c "("%char = false /\ ascii_eqb c "\"%char = false /\ ascii_eqb c "$"%char = false
  /\ ascii_eqb c ";"%char = false /\ ascii_eqb c "/"%char = false.
Proof.
  intros [[] [] [] [] [] [] [] []] H; vm_compute in H; try discriminate H; repeat split; reflexivity.
Qed.
Lemma word_facts : forall c, is_word c = true -> name_char c = true /\ ascii_eqb c "}"%char = false.
Proof. intros [[] [] [] [] [] [] [] []] H; vm_compute in H; try discriminate H; repeat split; reflexivity. Qed.

Lemma segments_plain : forall s, Forall (fun c => name_char c = true) s -> segments None s = Some (map Lit s).
Proof.
  induction 1 as [|c s C _ IH]; [reflexivity|]. cbn [segments]. destruct (name_char_facts c C) as (_ & _ & _ & _ & _ & _ & _ & -> & _).
  rewrite IH. reflexivity.
Qed.
Lemma lexes_bare : forall s n l a, Forall (fun c => name_char c = true) s -> lexes (Bare n l a) s = (Bare n l (a ++ s), []).
Proof.
  induction s as [|c s IH]; intros n l a F; [rewrite app_nil_r; reflexivity|]. inversion_clear F as [|? ? C G]. cbn [lexes lex].
  destruct (name_char_facts c C) as (-> & -> & -> & -> & -> & -> & -> & _). cbn [orb]. rewrite (IH n l (a ++ [c]) G).
  rewrite <- app_assoc. reflexivity.
Qed.
Lemma lexes_inside : forall s n l, name_like s -> lexes (Inside n l) s = (Bare n l s, []).
Proof.
  intros [|c s] n l [N F]; [congruence|]. inversion_clear F as [|? ? C G]. cbn [lexes lex].
  destruct (name_char_facts c C) as (-> & -> & -> & -> & -> & -> & -> & _). cbn [orb]. rewrite (lexes_bare s n l [c] G). reflexivity.
Qed.
Lemma segments_ref : forall s n r, Forall (fun c => is_word c = true) s ->
  segments (Some n) (s ++ "}"%char :: r) = option_map (cons (Ref (n ++ s))) (segments None r).
Proof.
  induction s as [|c s IH]; intros n r F; cbn [app segments].
  - rewrite app_nil_r. reflexivity.
  - inversion_clear F as [|? ? C G]. destruct (word_facts c C) as [_ ->]. rewrite C, (IH _ _ G), <- app_assoc. reflexivity.
Qed.
Lemma lexes_quoted : forall s n l a, Forall (fun c => name_char c = true) s -> lexes (Quoted n l a) s = (Quoted n l (a ++ s), []).
Proof.
  induction s as [|c s IH]; intros n l a F; [rewrite app_nil_r; reflexivity|]. inversion_clear F as [|? ? C G]. cbn [lexes lex].
  destruct (name_char_facts c C) as (_ & _ & _ & _ & -> & _ & -> & _). rewrite (IH n l (a ++ [c]) G).
  rewrite <- app_assoc. reflexivity.
Qed.
(** The end of an argument, by a blank or line feed, or by the closing parenthesis. *)
Lemma lex_bare_end : forall n l a c, Forall (fun c => name_char c = true) a -> is_blank c || ascii_eqb c NL = true ->
  lex (Bare n l a) c = (Inside n (l ++ [bare a]), []).
Proof. intros n l a c F C. cbn [lex]. rewrite C. unfold with_arg. rewrite (segments_plain a F). reflexivity. Qed.
Lemma lex_bare_close : forall n l a, Forall (fun c => name_char c = true) a ->
  lex (Bare n l a) ")"%char = (Behind, [{| c_name := map tolower n; c_args := l ++ [bare a] |}]).
Proof. intros n l a F. cbn [lex]. cbn [is_blank ascii_eqb Ascii.eqb Bool.eqb orb]. unfold with_arg. rewrite (segments_plain a F). reflexivity. Qed.

Definition letters (s : str) : Prop := s <> [] /\ Forall (fun c => isalpha c = true) s.
Lemma letter_word : forall c, isalpha c = true -> is_word c = true.
Proof. intros c H. unfold is_word. rewrite H. reflexivity. Qed.
Lemma letters_words : forall s, letters s -> Forall (fun c => is_word c = true) s.
Proof. intros s [_ F]. eapply Forall_impl; [|exact F]. apply letter_word. Qed.
Lemma words_names : forall s, Forall (fun c => is_word c = true) s -> Forall (fun c => name_char c = true) s.
Proof. intros s F. eapply Forall_impl; [|exact F]. intros c C. exact (proj1 (word_facts c C)). Qed.
Lemma letters_name : forall s, letters s -> name_like s.
Proof. intros s L. split; [apply L|]. apply words_names, letters_words, L. Qed.
Lemma checked : forall (p : ascii -> bool) s, forallb p s = true -> Forall (fun c => p c = true) s.
Proof. intros p s H. apply Forall_forall. apply forallb_forall. exact H. Qed.
Ltac words := repeat first [assumption | (apply checked; reflexivity) | (apply Forall_app; split) | (apply words_names; assumption)].

(** What scaffoldRule writes into the list of a category. *)
Definition set_command (v : str) (l : list str) : command := {| c_name := $"set"; c_args := bare v :: map bare l |}.
Definition rules_command (v : str) : command := {| c_name := $"build_dynamic_rules"; c_args := [{| a_quoted := true; a_text := [Ref v] |}] |}.
Definition build_variable (n : str) : str := $"Build" ++ n ++ $"Rule".
Lemma rule_step_commands : forall n, letters n ->
  commands_in ($"SET(Build" ++ n ++ $"Rule " ++ n ++ $")" ++ [NL]
     ++ $"BUILD_DYNAMIC_RULES(" ++ [""""]%char ++ $"${Build" ++ n ++ $"Rule}" ++ [""""]%char ++ $")" ++ [NL])
  = Some [set_command (build_variable n) [n]; rules_command (build_variable n)].
Proof.
  intros n L. pose proof (letters_words n L) as W. pose proof (words_names n W) as N. unfold commands_in.
  replace (lexes Between _) with (Between, [set_command (build_variable n) [n]; rules_command (build_variable n)]); [reflexivity|].
  rewrite lexes_app. change (lexes Between $"SET(Build") with (Bare $"SET" [] $"Build", @nil command). cbn [fst snd].
  rewrite lexes_app, (lexes_bare n) by exact N. cbn [fst snd].
  change $"Rule " with ($"Rule" ++ [" "%char]). rewrite <- app_assoc, lexes_app, lexes_bare by words. cbn [fst snd].
  rewrite lexes_app. rewrite lexes_one, lex_bare_end by (words || reflexivity). cbn [fst snd].
  rewrite lexes_app, lexes_inside by (apply letters_name; exact L). cbn [fst snd].
  rewrite lexes_app. change $")" with [")"%char]. rewrite lexes_one, lex_bare_close by exact N. cbn [fst snd].
  rewrite lexes_app. change (lexes Behind [NL]) with (Between, @nil command). cbn [fst snd].
  rewrite lexes_app. change (lexes Between $"BUILD_DYNAMIC_RULES(") with (Inside $"BUILD_DYNAMIC_RULES" [], @nil command). cbn [fst snd].
  rewrite lexes_app. change (lexes (Inside $"BUILD_DYNAMIC_RULES" []) [""""%char]) with (Quoted $"BUILD_DYNAMIC_RULES" [] [], @nil command). cbn [fst snd].
  rewrite lexes_app. change (lexes (Quoted $"BUILD_DYNAMIC_RULES" [] []) $"${Build") with (Quoted $"BUILD_DYNAMIC_RULES" [] $"${Build", @nil command). cbn [fst snd].
  rewrite lexes_app, lexes_quoted by exact N. cbn [fst snd].
  change $"Rule}" with ($"Rule" ++ ["}"%char]). rewrite <- app_assoc, lexes_app, lexes_quoted by words. cbn [fst snd].
  rewrite lexes_app, lexes_one.
  change (lex (Quoted $"BUILD_DYNAMIC_RULES" [] (($"${Build" ++ n) ++ $"Rule")) "}")
    with (Quoted $"BUILD_DYNAMIC_RULES" [] ((($"${Build" ++ n) ++ $"Rule") ++ ["}"%char]), @nil command). cbn [fst snd].
  assert (Q : segments None ((($"${Build" ++ n) ++ $"Rule") ++ ["}"%char]) = Some [Ref (build_variable n)]).
  { rewrite <- !app_assoc. change ($"${Build" ++ n ++ $"Rule" ++ ["}"%char]) with ("$"%char :: "{"%char :: $"Build" ++ n ++ $"Rule" ++ ["}"%char]).
    cbn [segments]. change (ascii_eqb "$" "$") with true. change (ascii_eqb "{" "{") with true. cbv iota.
    replace ($"Build" ++ n ++ $"Rule" ++ ["}"%char]) with (build_variable n ++ "}"%char :: []) by (unfold build_variable; rewrite <- !app_assoc; reflexivity).
    rewrite segments_ref; [reflexivity|]. unfold build_variable. words. }
  rewrite lexes_app, lexes_one. cbn [lex]. change (ascii_eqb """" """") with true. cbv iota. unfold with_arg. rewrite Q. cbn [fst snd].
  change (build_variable n) with ($"Build" ++ n ++ $"Rule"). rewrite <- (app_assoc $"Build"). reflexivity.
Qed.
Definition call (n : str) (l : list str) : command := {| c_name := n; c_args := map bare l |}.
Lemma one_argument : forall n c, name_like c -> Forall (fun x => is_word x = true /\ isdigit x = false) n -> n <> [] ->
  commands_in (n ++ $"(" ++ c ++ $")" ++ [NL]) = Some [call (map tolower n) [c]].
Proof.
  intros n c N F X. unfold commands_in. replace (lexes Between _) with (Between, [call (map tolower n) [c]]); [reflexivity|].
  assert (R : forall m a, Forall (fun x => is_word x = true /\ isdigit x = false) m -> lexes (Naming a) m = (Naming (a ++ m), [])).
  { induction m as [|x m IH]; intros a G; [rewrite app_nil_r; reflexivity|]. inversion_clear G as [|? ? [W D] H]. cbn [lexes lex]. rewrite W, (IH _ H), <- app_assoc. reflexivity. }
  rewrite lexes_app. replace (lexes Between n) with (Naming n, @nil command).
  2:{ destruct n as [|x n]; [congruence|]. inversion_clear F as [|? ? [W D] H]. cbn [lexes lex]. destruct (name_char_facts x (proj1 (word_facts x W))) as (-> & -> & _ & -> & _).
      rewrite W, D. cbn [orb andb negb]. rewrite (R n [x] H). reflexivity. }
  cbn [fst snd]. rewrite lexes_app. change (lexes (Naming n) $"(") with (Inside n [], @nil command). cbn [fst snd].
  rewrite lexes_app, lexes_inside by exact N. cbn [fst snd]. rewrite lexes_app. change $")" with [")"%char]. rewrite (lexes_one (Bare n [] c)).
  rewrite lex_bare_close by apply N. reflexivity.
Qed.
Lemma test_step_commands : forall n, letters n ->
  commands_in ($"BUILD_TEST(" ++ n ++ $"RuleTest" ++ [NL] ++ n ++ $"RuleTest.cpp)" ++ [NL])
  = Some [call $"build_test" [n ++ $"RuleTest"; n ++ $"RuleTest.cpp"]].
Proof.
  intros n L. pose proof (letters_words n L) as W. pose proof (words_names n W) as N. unfold commands_in.
  replace (lexes Between _) with (Between, [call $"build_test" [n ++ $"RuleTest"; n ++ $"RuleTest.cpp"]]); [reflexivity|].
  rewrite lexes_app. change (lexes Between $"BUILD_TEST(") with (Inside $"BUILD_TEST" [], @nil command). cbn [fst snd].
  rewrite lexes_app, lexes_inside by (apply letters_name; exact L). cbn [fst snd].
  rewrite lexes_app, lexes_bare by words. cbn [fst snd]. rewrite lexes_app, (lexes_one (Bare _ _ _)).
  rewrite lex_bare_end by (words || reflexivity). cbn [fst snd].
  rewrite lexes_app, lexes_inside by (apply letters_name; exact L). cbn [fst snd].
  change $"RuleTest.cpp)" with ($"RuleTest.cpp" ++ [")"%char]). rewrite <- app_assoc, lexes_app, lexes_bare by words. cbn [fst snd].
  rewrite lexes_app, (lexes_one (Bare _ _ _)), lex_bare_close by words. reflexivity.
Qed.

(** ** Running *)
Definition bindr (r : result) (k : cstate -> result) : result := match r with Done s => k s | _ => r end.
Fixpoint each (go : cstate -> result) (x : str) (items : list str) (s : cstate) : result :=
  match items with
  | [] => Done s
  | i :: is => bindr (go (with_vars (assign (s_vars s) x (Some i)) s)) (each go x is)
  end.
Section Machine.
  Variables (F : files) (binary : str) (config : variables -> option variables).
  Notation run := (run F binary config).

  Lemma run_unfold : forall f dir c rest s, run (S f) dir (c :: rest) s =
    (let n := c_name c in
     let args := plain_values (s_vars s) (c_args c) in
     let next rest r := bindr r (run f dir rest) in
     if str_eqb n $"if" then
       match branches 0 rest, condition F (s_vars s) (values (s_vars s) (c_args c)) with
       | Some b, Some true => next (i_rest b) (run f dir (i_then b) s)
       | Some b, Some false => next (i_rest b) (run f dir (i_else b) s)
       | _, _ => Failed
       end
     else if str_eqb n $"foreach" then
       match block $"foreach" $"endforeach" 0 rest, args with
       | Some (body, rest), x :: items =>
           next rest (bindr (each (run f dir body) x items s) (fun s' => Done (with_vars (assign (s_vars s') x (s_vars s x)) s')))
       | _, _ => Failed
       end
     else if str_eqb n $"macro" then
       match block $"macro" $"endmacro" 0 rest, args with
       | Some (body, rest), x :: formals => run f dir rest (with_macro (map tolower x) formals body s)
       | _, _ => Failed
       end
     else if str_eqb n $"add_subdirectory" then
       match args with
       | [d] =>
           let sub := join dir d in
           match F (join sub $"CMakeLists.txt") with
           | Some text =>
               if existsb (str_eqb sub) (s_dirs s) then Failed
               else match commands_in text with
                    | Some l => next rest (bindr (run f sub l (with_dir sub (with_vars (assign (s_vars s) current (Some sub)) s)))
                                                 (fun s' => Done (with_vars (s_vars s) s')))
                    | None => Failed
                    end
           | None => Failed
           end
       | _ => Failed
       end
     else match find (fun m => str_eqb (fst m) n) (s_macros s) with
          | Some (_, (formals, body)) =>
              if length formals <=? length args then next rest (run f dir (instance (bindings formals args) body) s) else Failed
          | None => match builtin binary config dir c s with Some r => next rest r | None => Failed end
          end).
  Proof.
    intros f dir c rest s. cbn [ModelCMake.run]. cbv zeta.
    destruct (str_eqb (c_name c) $"if"); [reflexivity|].
    destruct (str_eqb (c_name c) $"foreach").
    { destruct (block _ _ 0 rest) as [[body rest']|]; [|reflexivity].
      destruct (plain_values _ _) as [|x items]; [reflexivity|].
      match goal with |- match match ?a with _ => _ end with _ => _ end = _ => replace a with (each (run f dir body) x items s) end.
      { destruct (each _ _ _ _); reflexivity. }
      generalize s as t. induction items as [|i items IH]; intros t; [reflexivity|]. cbn [each].
      destruct (run f dir body _); [apply IH|reflexivity|reflexivity]. }
    destruct (str_eqb (c_name c) $"macro"); [reflexivity|].
    destruct (str_eqb (c_name c) $"add_subdirectory"); [|reflexivity].
    destruct (plain_values _ _) as [|d [|? ?]]; [reflexivity| |reflexivity]. destruct (F _) as [text|]; [|reflexivity].
    destruct (existsb _ _); [reflexivity|]. destruct (commands_in text) as [l|]; [|reflexivity].
    destruct (run f _ l _); reflexivity.
  Qed.

  (** More steps change nothing. *)
  Lemma bindr_more : forall (r r' : result) (k k' : cstate -> result),
    (r <> Exhausted -> r' = r) -> (forall s, k s <> Exhausted -> k' s = k s) -> bindr r k <> Exhausted -> bindr r' k' = bindr r k.
  Proof.
    intros r r' k k' R K. destruct r as [s| |]; cbn [bindr]; intros N.
    - rewrite R by discriminate. cbn [bindr]. apply K, N.
    - rewrite R by discriminate. reflexivity.
    - congruence.
  Qed.
  Lemma each_more : forall (go go' : cstate -> result) x items, (forall s, go s <> Exhausted -> go' s = go s) ->
    forall s, each go x items s <> Exhausted -> each go' x items s = each go x items s.
  Proof.
    intros go go' x items G. induction items as [|i items IH]; intros s; [reflexivity|]. cbn [each].
    apply bindr_more; [apply G|apply IH].
  Qed.
  Lemma run_more : forall f dir l s, run f dir l s <> Exhausted -> run (S f) dir l s = run f dir l s.
  Proof.
    induction f as [|f IH]; intros dir l s; [intros N; exfalso; apply N; reflexivity|].
    destruct l as [|c rest]; [reflexivity|].
    rewrite (run_unfold (S f)), (run_unfold f). cbv zeta.
    assert (B : forall r r' rest, (r <> Exhausted -> r' = r) -> bindr r (run f dir rest) <> Exhausted ->
                bindr r' (run (S f) dir rest) = bindr r (run f dir rest)).
    { intros r r' rest' R. apply bindr_more; [exact R|]. intros s'. apply IH. }
    destruct (str_eqb (c_name c) $"if").
    { destruct (branches 0 rest) as [b|]; [|reflexivity]. destruct (condition _ _ _) as [[]|]; [| |reflexivity]; apply B, IH. }
    destruct (str_eqb (c_name c) $"foreach").
    { destruct (block _ _ 0 rest) as [[body rest']|]; [|reflexivity]. destruct (plain_values _ _) as [|x items]; [reflexivity|].
      apply B. apply bindr_more; [|reflexivity]. apply each_more. intros t. apply IH. }
    destruct (str_eqb (c_name c) $"macro").
    { destruct (block _ _ 0 rest) as [[body rest']|]; [|reflexivity]. destruct (plain_values _ _) as [|x items]; [reflexivity|]. apply IH. }
    destruct (str_eqb (c_name c) $"add_subdirectory").
    { destruct (plain_values _ _) as [|d [|? ?]]; [reflexivity| |reflexivity]. destruct (F _) as [text|]; [|reflexivity].
      destruct (existsb _ _); [reflexivity|]. destruct (commands_in text) as [l|]; [|reflexivity].
      apply B. apply bindr_more; [apply IH|reflexivity]. }
    destruct (find _ _) as [[? [formals body]]|].
    { destruct (_ <=? _); [|reflexivity]. apply B, IH. }
    destruct (builtin _ _ _ _ _) as [r|]; [|reflexivity]. apply B. reflexivity.
  Qed.
  Lemma run_enough : forall f k dir l s, run f dir l s <> Exhausted -> run (f + k) dir l s = run f dir l s.
  Proof.
    intros f k dir l s N. induction k as [|k IH]; [rewrite Nat.add_0_r; reflexivity|].
    rewrite Nat.add_succ_r, run_more; [exact IH|]. rewrite IH. exact N.
  Qed.

  Definition steps (dir : str) (l : list command) (s s' : cstate) : Prop := exists f, run f dir l s = Done s'.
  Lemma steps_at : forall dir l s s', steps dir l s s' -> exists n, forall f, n <= f -> run f dir l s = Done s'.
  Proof.
    intros dir l s s' (n & R). exists n. intros f L. replace f with (n + (f - n)) by lia. rewrite run_enough; [exact R|]. rewrite R. discriminate.
  Qed.
  Lemma steps_nil : forall dir s, steps dir [] s s.
  Proof. intros dir s. exists 1. reflexivity. Qed.

  Ltac combine_runs H1 H2 := let n1 := fresh "n1" in let n2 := fresh "n2" in let R1 := fresh "R1" in let R2 := fresh "R2" in
    destruct (steps_at _ _ _ _ H1) as (n1 & R1); destruct (steps_at _ _ _ _ H2) as (n2 & R2);
    exists (S (max n1 n2)); rewrite run_unfold; cbv zeta.
  Lemma steps_if : forall dir c rest b v s s1 s2, c_name c = $"if" -> branches 0 rest = Some b ->
    condition F (s_vars s) (values (s_vars s) (c_args c)) = Some v ->
    steps dir (if v then i_then b else i_else b) s s1 -> steps dir (i_rest b) s1 s2 -> steps dir (c :: rest) s s2.
  Proof.
    intros dir c rest b v s s1 s2 N B C H1 H2. combine_runs H1 H2. rewrite N. change (str_eqb $"if" $"if") with true. cbv iota.
    rewrite B, C. destruct v; rewrite R1 by lia; cbn [bindr]; apply R2; lia.
  Qed.
  Lemma steps_macro : forall dir c rest body rest' x formals s s2, c_name c = $"macro" ->
    block $"macro" $"endmacro" 0 rest = Some (body, rest') -> plain_values (s_vars s) (c_args c) = x :: formals ->
    steps dir rest' (with_macro (map tolower x) formals body s) s2 -> steps dir (c :: rest) s s2.
  Proof.
    intros dir c rest body rest' x formals s s2 N B A H. destruct H as (n & R). exists (S n). rewrite run_unfold. cbv zeta.
    rewrite N, B, A. exact R.
  Qed.
  Lemma steps_call : forall dir c rest formals body s s1 s2,
    existsb (str_eqb (c_name c)) [$"if"; $"foreach"; $"macro"; $"add_subdirectory"] = false ->
    find (fun m => str_eqb (fst m) (c_name c)) (s_macros s) = Some (c_name c, (formals, body)) ->
    length formals <= length (plain_values (s_vars s) (c_args c)) ->
    steps dir (instance (bindings formals (plain_values (s_vars s) (c_args c))) body) s s1 -> steps dir rest s1 s2 ->
    steps dir (c :: rest) s s2.
  Proof.
    intros dir c rest formals body s s1 s2 N M L H1 H2. combine_runs H1 H2. cbn [existsb] in N.
    apply Bool.orb_false_iff in N as [-> N]. apply Bool.orb_false_iff in N as [-> N]. apply Bool.orb_false_iff in N as [-> N].
    apply Bool.orb_false_iff in N as [-> _]. rewrite M. apply Nat.leb_le in L. rewrite L, R1 by lia. cbn [bindr]. apply R2. lia.
  Qed.
  Lemma steps_builtin : forall dir c rest s s1 s2,
    existsb (str_eqb (c_name c)) [$"if"; $"foreach"; $"macro"; $"add_subdirectory"] = false ->
    find (fun m => str_eqb (fst m) (c_name c)) (s_macros s) = None ->
    builtin binary config dir c s = Some (Done s1) -> steps dir rest s1 s2 -> steps dir (c :: rest) s s2.
  Proof.
    intros dir c rest s s1 s2 N M B (n & R). exists (S n). rewrite run_unfold. cbv zeta. cbn [existsb] in N.
    apply Bool.orb_false_iff in N as [-> N]. apply Bool.orb_false_iff in N as [-> N]. apply Bool.orb_false_iff in N as [-> N].
    apply Bool.orb_false_iff in N as [-> _]. rewrite M, B. exact R.
  Qed.
  Lemma steps_subdirectory : forall dir c rest d text l s s1 s2, c_name c = $"add_subdirectory" ->
    plain_values (s_vars s) (c_args c) = [d] -> F (join (join dir d) $"CMakeLists.txt") = Some text ->
    existsb (str_eqb (join dir d)) (s_dirs s) = false -> commands_in text = Some l ->
    steps (join dir d) l (with_dir (join dir d) (with_vars (assign (s_vars s) current (Some (join dir d))) s)) s1 ->
    steps dir rest (with_vars (s_vars s) s1) s2 -> steps dir (c :: rest) s s2.
  Proof.
    intros dir c rest d text l s s1 s2 N A T E C H1 H2. combine_runs H1 H2. rewrite N, A. cbv zeta. rewrite T, E, C.
    change (str_eqb $"add_subdirectory" $"if") with false. change (str_eqb $"add_subdirectory" $"foreach") with false.
    change (str_eqb $"add_subdirectory" $"macro") with false. change (str_eqb $"add_subdirectory" $"add_subdirectory") with true. cbv iota.
    rewrite R1 by lia. cbn [bindr]. apply R2. lia.
  Qed.
  (** A loop, by an invariant on the items still to come. *)
  Inductive loops (dir : str) (body : list command) (x : str) : list str -> cstate -> cstate -> Prop :=
  | loops_nil s : loops dir body x [] s s
  | loops_cons i is s s1 s2 : steps dir body (with_vars (assign (s_vars s) x (Some i)) s) s1 -> loops dir body x is s1 s2 ->
      loops dir body x (i :: is) s s2.
  Lemma loops_each : forall dir body x items s s2, loops dir body x items s s2 ->
    exists n, forall f, n <= f -> each (run f dir body) x items s = Done s2.
  Proof.
    induction 1 as [s|i is s s1 s2 H _ (n2 & R2)]; [exists 0; reflexivity|]. destruct (steps_at _ _ _ _ H) as (n1 & R1).
    exists (max n1 n2). intros f L. cbn [each]. rewrite R1 by lia. cbn [bindr]. apply R2. lia.
  Qed.
  Lemma steps_foreach : forall dir c rest body rest' x items s s1 s2, c_name c = $"foreach" ->
    block $"foreach" $"endforeach" 0 rest = Some (body, rest') -> plain_values (s_vars s) (c_args c) = x :: items ->
    loops dir body x items s s1 -> steps dir rest' (with_vars (assign (s_vars s1) x (s_vars s x)) s1) s2 ->
    steps dir (c :: rest) s s2.
  Proof.
    intros dir c rest body rest' x items s s1 s2 N B A H1 H2. destruct (loops_each _ _ _ _ _ _ H1) as (n1 & R1).
    destruct (steps_at _ _ _ _ H2) as (n2 & R2). exists (S (max n1 n2)). rewrite run_unfold. cbv zeta. rewrite N, B, A.
    change (str_eqb $"foreach" $"if") with false. change (str_eqb $"foreach" $"foreach") with true. cbv iota.
    rewrite R1 by lia. cbn [bindr]. apply R2. lia.
  Qed.
End Machine.

(** ** Values *)
Definition over (b v : variables) : variables := fun n => match b n with Some x => Some x | None => v n end.
Lemma expand_put : forall b v t, expand v (put b t) = expand (over b v) t.
Proof.
  intros b v t. unfold put, expand. induction t as [|[c|n] t IH]; [reflexivity| |]; cbn [flat_map].
  - rewrite flat_map_app, IH. reflexivity.
  - rewrite flat_map_app, IH. f_equal. unfold over. destruct (b n) as [x|]; [|cbn; apply app_nil_r].
    induction x as [|c x IHx]; [reflexivity|]. cbn. f_equal. exact IHx.
Qed.
Lemma expand_lit : forall v t, expand v (map Lit t) = t.
Proof. intros v t. unfold expand. induction t as [|c t IH]; [reflexivity|]. cbn. f_equal. exact IH. Qed.
Definition no_semicolon (s : str) : Prop := ~ In ";"%char s.
Lemma elements_one : forall s cur, no_semicolon s -> cur ++ s <> [] -> elements cur s = [cur ++ s].
Proof.
  induction s as [|c s IH]; intros cur N X; cbn [elements].
  - rewrite app_nil_r in *. destruct cur; [congruence|reflexivity].
  - replace (ascii_eqb c ";"%char) with false.
    + rewrite IH; [rewrite <- app_assoc; reflexivity|intros I; apply N; right; exact I|rewrite <- app_assoc; exact X].
    + symmetry. apply Ascii.eqb_neq. intros ->. apply N. left. reflexivity.
Qed.
Lemma elements_list : forall l, Forall (fun s => no_semicolon s /\ s <> []) l -> elements [] (list_of l) = l.
Proof.
  assert (G : forall l cur, Forall (fun s => no_semicolon s /\ s <> []) l -> cur <> [] ->
              elements cur (flat_map (fun b => ";"%char :: b) l) = cur :: l).
  { intros l. induction l as [|a l IH]; intros cur F X; [destruct cur; [congruence|reflexivity]|].
    inversion_clear F as [|? ? [N Y] G]. cbn [flat_map app elements]. change (ascii_eqb ";" ";") with true. cbv iota.
    destruct cur as [|z cur]; [congruence|]. cbn [is_nil app]. f_equal.
    assert (K : forall t p, no_semicolon t -> elements p (t ++ flat_map (fun b => ";"%char :: b) l) = elements (p ++ t) (flat_map (fun b => ";"%char :: b) l)).
    { induction t as [|c t IHt]; intros p T; [rewrite app_nil_r; reflexivity|]. cbn [app elements].
      replace (ascii_eqb c ";"%char) with false by (symmetry; apply Ascii.eqb_neq; intros ->; apply T; left; reflexivity).
      rewrite IHt by (intros I; apply T; right; exact I). rewrite <- app_assoc. reflexivity. }
    rewrite K by exact N. cbn [app]. apply IH; assumption. }
  intros [|a l] F; [reflexivity|]. inversion_clear F as [|? ? [N X] H]. cbn [list_of].
  assert (K : forall t p, no_semicolon t -> elements p (t ++ flat_map (fun b => ";"%char :: b) l) = elements (p ++ t) (flat_map (fun b => ";"%char :: b) l)).
  { induction t as [|c t IHt]; intros p T; [rewrite app_nil_r; reflexivity|]. cbn [app elements].
    replace (ascii_eqb c ";"%char) with false by (symmetry; apply Ascii.eqb_neq; intros ->; apply T; left; reflexivity).
    rewrite IHt by (intros I; apply T; right; exact I). rewrite <- app_assoc. reflexivity. }
  rewrite K by exact N. cbn [app]. apply G; assumption.
Qed.

Definition segs (t : str) : list seg := match segments None t with Some l => l | None => [] end.
Definition u (t : str) : argument := {| a_quoted := false; a_text := segs t |}.
Definition q (t : str) : argument := {| a_quoted := true; a_text := segs t |}.
Definition cmd (n : str) (l : list argument) : command := {| c_name := n; c_args := l |}.
Definition val (w : variables) (t : str) : str := expand w (segs t).
Definition inst (b : variables) (a : argument) : argument := {| a_quoted := a_quoted a; a_text := put b (a_text a) |}.

Lemma values_inst : forall b v l, values v (map (inst b) l) = values (over b v) l.
Proof.
  intros b v l. unfold values. induction l as [|a l IH]; [reflexivity|]. cbn [map flat_map inst a_quoted a_text]. rewrite expand_put, IH. reflexivity.
Qed.
Lemma values_u : forall w t x r, val w t = x -> no_semicolon x -> x <> [] -> values w (u t :: r) = (false, x) :: values w r.
Proof.
  intros w t x r E N X. unfold values. cbn [flat_map u a_quoted a_text]. unfold val in E. rewrite E, elements_one by assumption. reflexivity.
Qed.
Lemma values_bare : forall w x r, no_semicolon x -> x <> [] -> values w (bare x :: r) = (false, x) :: values w r.
Proof.
  intros w x r N X. unfold values. cbn [flat_map bare a_quoted a_text]. rewrite expand_lit, elements_one by assumption. reflexivity.
Qed.
Lemma values_bares : forall w l, Forall (fun x => no_semicolon x /\ x <> []) l -> plain_values w (map bare l) = l.
Proof.
  intros w l F. unfold plain_values. induction F as [|x l [N X] _ IH]; [reflexivity|]. cbn [map]. rewrite values_bare by assumption.
  cbn [map snd]. f_equal. exact IH.
Qed.
Lemma values_q : forall w t x r, val w t = x -> values w (q t :: r) = (true, x) :: values w r.
Proof. intros w t x r E. unfold values. cbn [flat_map q a_quoted a_text]. unfold val in E. rewrite E. reflexivity. Qed.
Lemma values_iu : forall b v t x r, val (over b v) t = x -> no_semicolon x -> x <> [] -> values v (inst b (u t) :: r) = (false, x) :: values v r.
Proof.
  intros b v t x r V N E. change (inst b (u t) :: r) with (map (inst b) [u t] ++ r). unfold values at 1. rewrite flat_map_app.
  change (flat_map _ (map (inst b) [u t])) with (values v (map (inst b) [u t])). rewrite values_inst, (values_u _ _ x) by assumption. reflexivity.
Qed.
Lemma values_il : forall b v t r, map snd (values v (inst b (u t) :: r)) = elements [] (val (over b v) t) ++ map snd (values v r).
Proof.
  intros b v t r. change (inst b (u t) :: r) with (map (inst b) [u t] ++ r). unfold values at 1. rewrite flat_map_app, map_app.
  change (flat_map _ (map (inst b) [u t])) with (values v (map (inst b) [u t])). rewrite values_inst. unfold values at 1, u at 1. cbn [flat_map a_quoted a_text].
  rewrite app_nil_r, map_map. cbn [snd]. rewrite map_id. reflexivity.
Qed.
Lemma values_iq : forall b v t x r, val (over b v) t = x -> values v (inst b (q t) :: r) = (true, x) :: values v r.
Proof.
  intros b v t x r V. change (inst b (q t) :: r) with (map (inst b) [q t] ++ r). unfold values at 1. rewrite flat_map_app.
  change (flat_map _ (map (inst b) [q t])) with (values v (map (inst b) [q t])). rewrite values_inst, (values_q _ _ x) by assumption. reflexivity.
Qed.
Lemma val_plain : forall w t, forallb (fun c => negb (ascii_eqb c "$"%char)) t = true -> val w t = t.
Proof.
  intros w t H. unfold val, segs. replace (segments None t) with (Some (map Lit t)); [apply expand_lit|].
  induction t as [|c t IH]; [reflexivity|]. cbn [forallb] in H. apply andb_prop in H as [C H]. cbn [segments].
  destruct (ascii_eqb c "$"%char); [discriminate|]. rewrite <- (IH H). reflexivity.
Qed.
Lemma semicolon_check : forall s, forallb (fun c => negb (ascii_eqb c ";"%char)) s = true -> no_semicolon s.
Proof.
  intros s H I. rewrite forallb_forall in H. specialize (H _ I). discriminate H.
Qed.
Lemma no_semicolon_app : forall a b, no_semicolon a -> no_semicolon b -> no_semicolon (a ++ b).
Proof. intros a b A B I. apply in_app_or in I. destruct I as [I|I]; [exact (A I)|exact (B I)]. Qed.
Lemma names_no_semicolon : forall s, Forall (fun c => name_char c = true) s -> no_semicolon s.
Proof. intros s F I. rewrite Forall_forall in F. specialize (F _ I). discriminate F. Qed.
Lemma app_not_nil : forall (a b : str), a <> [] \/ b <> [] -> a ++ b <> [].
Proof. intros [|x a] b H E; [destruct H as [H|H]; [exact (H eq_refl)|exact (H E)]|discriminate]. Qed.

Section Builtins.
  Variables (binary : str) (config : variables -> option variables) (dir : str) (c : command) (s : cstate).
  Notation builtin := (builtin binary config dir c s).
  Notation args := (plain_values (s_vars s) (c_args c)).
  Lemma builtin_set : forall x v vs, c_name c = $"set" -> args = x :: v :: vs ->
    existsb (fun v => str_eqb v $"CACHE" || str_eqb v $"PARENT_SCOPE") (v :: vs) = false ->
    builtin = Some (Done (with_vars (assign (s_vars s) x (Some (list_of (v :: vs)))) s)).
  Proof. intros x v vs N A E. unfold ModelCMake.builtin. rewrite N, A, E. reflexivity. Qed.
  Lemma builtin_shared : forall x srcs, c_name c = $"add_library" -> args = x :: $"SHARED" :: srcs ->
    builtin = Some (add_target Shared dir x srcs s).
  Proof. intros x srcs N A. unfold ModelCMake.builtin. rewrite N, A. reflexivity. Qed.
  Lemma builtin_static : forall x k srcs, c_name c = $"add_library" -> args = x :: k :: srcs ->
    existsb (str_eqb k) [$"SHARED"; $"STATIC"; $"MODULE"; $"OBJECT"; $"INTERFACE"; $"ALIAS"; $"UNKNOWN"] = false ->
    builtin = Some (add_target Static dir x (k :: srcs) s).
  Proof.
    intros x k srcs N A E. unfold ModelCMake.builtin. rewrite N, A. cbn [existsb] in E. apply Bool.orb_false_iff in E as [E1 E].
    apply Bool.orb_false_iff in E as [E2 E]. change (str_eqb $"add_library" $"set") with false. change (str_eqb $"add_library" $"add_library") with true.
    cbv iota. rewrite E1, E2. cbn [existsb]. rewrite E. reflexivity.
  Qed.
  Lemma builtin_executable : forall x srcs, c_name c = $"add_executable" -> args = x :: srcs ->
    builtin = Some (add_target Executable dir x srcs s).
  Proof. intros x srcs N A. unfold ModelCMake.builtin. rewrite N, A. reflexivity. Qed.
  Lemma builtin_properties : forall x kvs l, c_name c = $"set_target_properties" -> args = x :: $"PROPERTIES" :: kvs -> pairs kvs = Some l ->
    builtin = Some (change_target x (fun t => {| t_name := t_name t; t_kind := t_kind t; t_sources := t_sources t;
                                                 t_properties := t_properties t ++ l; t_links := t_links t |}) s).
  Proof. intros x kvs l N A P. unfold ModelCMake.builtin. rewrite N, A, P. reflexivity. Qed.
  Lemma builtin_links : forall x libs, c_name c = $"target_link_libraries" -> args = x :: libs ->
    builtin = Some (change_target x (fun t => {| t_name := t_name t; t_kind := t_kind t; t_sources := t_sources t;
                                                 t_properties := t_properties t; t_links := t_links t ++ libs |}) s).
  Proof. intros x libs N A. unfold ModelCMake.builtin. rewrite N, A. reflexivity. Qed.
  Lemma builtin_test : forall x k more, c_name c = $"add_test" -> args = x :: k :: more ->
    builtin = Some (Done (with_test (x, k :: more) s)).
  Proof. intros x k more N A. unfold ModelCMake.builtin. rewrite N, A. reflexivity. Qed.
  Lemma builtin_nothing : In (c_name c) [$"cmake_minimum_required"; $"include_directories"; $"link_directories"] -> builtin = Some (Done s).
  Proof. intros [E|[E|[E|[]]]]; unfold ModelCMake.builtin; rewrite <- E; reflexivity. Qed.
End Builtins.

Lemma str_eqb_refl : forall s, str_eqb s s = true.
Proof. induction s as [|c s IH]; [reflexivity|]. cbn. unfold ascii_eqb. rewrite Ascii.eqb_refl. exact IH. Qed.
Lemma str_eqb_eq : forall a b, str_eqb a b = true <-> a = b.
Proof.
  induction a as [|x a IH]; intros [|y b]; cbn; try (split; [discriminate|discriminate]); [tauto|].
  rewrite Bool.andb_true_iff, IH. unfold ascii_eqb. rewrite Ascii.eqb_eq. split; [intros [-> ->]; reflexivity|intros [= -> ->]; auto].
Qed.
Lemma str_eqb_neq : forall a b, str_eqb a b = false <-> a <> b.
Proof. intros a b. rewrite <- Bool.not_true_iff_false, str_eqb_eq. reflexivity. Qed.

Lemma add_last : forall k dir n sources s, is_target n (s_targets s) = false ->
  add_target k dir n sources s = Done (with_targets (s_targets s ++
    [{| t_name := n; t_kind := k; t_sources := map (join dir) sources; t_properties := []; t_links := [] |}]) s).
Proof. intros k dir n sources s H. unfold add_target. rewrite H. reflexivity. Qed.
Lemma change_last : forall n f old t s, is_target n old = false -> t_name t = n -> s_targets s = old ++ [t] ->
  change_target n f s = Done (with_targets (old ++ [f t]) s).
Proof.
  intros n f old t s O T E. unfold change_target. rewrite E.
  replace (is_target n (old ++ [t])) with true by (unfold is_target; rewrite existsb_app; cbn; rewrite T, str_eqb_refl, Bool.orb_true_r; reflexivity).
  do 3 f_equal. rewrite map_app. cbn [map]. rewrite T, str_eqb_refl. f_equal.
  clear E. unfold is_target in O. induction old as [|x old IH]; [reflexivity|]. cbn in O. apply Bool.orb_false_iff in O as [X O]. cbn [map]. rewrite X.
  f_equal. exact (IH O).
Qed.

(** The commands about the newest target. *)
Definition newest (v : variables) (old : list target) (t : target) (s : cstate) : cstate := with_vars v (with_targets (old ++ [t]) s).
Section Newest.
  Variables (F : files) (binary : str) (config : variables -> option variables).
  Notation steps := (steps F binary config).
  Definition no_macro (n : str) (s : cstate) : Prop := find (fun m => str_eqb (fst m) n) (s_macros s) = None.
  Lemma step_add : forall dir c rest n k srcs v s s2,
    no_macro (c_name c) s -> is_target n (s_targets s) = false ->
    (c_name c = $"add_library" /\ plain_values v (c_args c) = n :: $"SHARED" :: srcs /\ k = Shared
     \/ c_name c = $"add_executable" /\ plain_values v (c_args c) = n :: srcs /\ k = Executable) ->
    steps dir rest (newest v (s_targets s) (Build_target n k (map (join dir) srcs) [] []) s) s2 ->
    steps dir (c :: rest) (with_vars v s) s2.
  Proof.
    intros dir c rest n k srcs v s s2 M Fr [(C & A & ->)|(C & A & ->)] R; (eapply steps_builtin; [rewrite C; reflexivity|exact M| |exact R]).
    - erewrite builtin_shared; [|exact C|exact A]. rewrite add_last by exact Fr. reflexivity.
    - erewrite builtin_executable; [|exact C|exact A]. rewrite add_last by exact Fr. reflexivity.
  Qed.
  Lemma step_properties : forall dir c rest n k so pr li kvs l v old s s2,
    c_name c = $"set_target_properties" -> no_macro (c_name c) s -> is_target n old = false ->
    plain_values v (c_args c) = n :: $"PROPERTIES" :: kvs -> pairs kvs = Some l ->
    steps dir rest (newest v old (Build_target n k so (pr ++ l) li) s) s2 ->
    steps dir (c :: rest) (newest v old (Build_target n k so pr li) s) s2.
  Proof.
    intros dir c rest n k so pr li kvs l v old s s2 C M Fr A P R. eapply steps_builtin; [rewrite C; reflexivity|exact M| |exact R].
    erewrite builtin_properties; [|exact C|exact A|exact P]. erewrite change_last; [|exact Fr| |reflexivity]; reflexivity.
  Qed.
  Lemma step_links : forall dir c rest n k so pr li libs v old s s2,
    c_name c = $"target_link_libraries" -> no_macro (c_name c) s -> is_target n old = false ->
    plain_values v (c_args c) = n :: libs ->
    steps dir rest (newest v old (Build_target n k so pr (li ++ libs)) s) s2 ->
    steps dir (c :: rest) (newest v old (Build_target n k so pr li) s) s2.
  Proof.
    intros dir c rest n k so pr li libs v old s s2 C M Fr A R. eapply steps_builtin; [rewrite C; reflexivity|exact M| |exact R].
    erewrite builtin_links; [|exact C|exact A]. erewrite change_last; [|exact Fr| |reflexivity]; reflexivity.
  Qed.
End Newest.
