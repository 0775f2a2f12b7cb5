(** * C145: each script does what its command line asks for, and so do the scripts that run others *)
From Verif Require Import Base BaseFacts SpecConfig ProofConfig SpecReporters ProofReporters ModelScaffold ModelBuild SpecBuild PropBuild ModelScripts SpecScripts.
Local Arguments lit : simpl never.

(** ** Command lines *)
Lemma mem_in x l : mem x l = true <-> In x l.
Proof.
  unfold mem. rewrite existsb_exists. split; [intros (y & I & E); apply str_eqb_eq in E; now subst|]. intros I. exists x. split; [exact I|apply str_eqb_refl].
Qed.
Lemma mem_not x l : mem x l = false <-> ~ In x l.
Proof. rewrite <- mem_in. destruct (mem x l); intuition congruence. Qed.
Definition proper (n : str) : bool := match n with [] => false | c :: _ => negb (ascii_eqb c "-"%char) end && negb (existsb (ascii_eqb "="%char) n).
Definition starts_j (n : str) : bool := match n with c :: _ => ascii_eqb c "j"%char | [] => false end.
Definition good_names (flags valued : list str) : bool :=
  forallb (fun n => proper n && negb (mem n valued) && negb (starts_j n)) flags && forallb (fun n => proper n && (negb (starts_j n) || str_eqb n $"j")) valued.
Definition collect (is : list item) : parsed :=
  {| a_flags := flat_map (fun i => match i with Flag n => [n] | _ => [] end) is;
     a_values := flat_map (fun i => match i with Opt n v => [(n, v)] | _ => [] end) is;
     a_words := free is |}.

Lemma no_equals n : existsb (ascii_eqb "="%char) n = false <-> ~ In "="%char n.
Proof.
  rewrite <- not_true_iff_false, existsb_exists. split; intros H; contradict H.
  - exists "="%char. split; [exact H|now apply ascii_eqb_eq].
  - destruct H as (c & I & E). apply ascii_eqb_eq in E. now subst.
Qed.
Lemma proper_spec n : proper n = true -> exists c r, n = c :: r /\ c <> "-"%char /\ ~ In "="%char n.
Proof.
  unfold proper. destruct n as [|c r]; [discriminate|]. intros H. apply andb_true_iff in H as (A & B). apply negb_true_iff in A, B. exists c, r. split; [reflexivity|].
  split; [|now apply no_equals]. intros ->. discriminate A.
Qed.
Lemma split_eq_some n k v : split_eq n = Some (k, v) -> n = k ++ $"=" ++ v /\ ~ In "="%char k.
Proof.
  revert k v. induction n as [|c n IH]; intros k v E; [discriminate|]. cbn [split_eq] in E. destruct (ascii_eqb c "="%char) eqn:C.
  - apply ascii_eqb_eq in C as ->. injection E as <- <-. split; [reflexivity|intros []].
  - destruct (split_eq n) as [(k' & v')|]; [|discriminate]. cbn in E. injection E as <- <-. destruct (IH k' v' eq_refl) as (-> & N). split; [reflexivity|].
    intros [->|I]; [|contradiction]. discriminate C.
Qed.
Lemma split_eq_none n : split_eq n = None <-> ~ In "="%char n.
Proof.
  induction n as [|c n IH]; [cbn; tauto|]. cbn [split_eq In]. destruct (ascii_eqb c "="%char) eqn:C.
  - apply ascii_eqb_eq in C as ->. split; [discriminate|]. intros H. destruct H. now left.
  - assert (c <> "="%char) by (intros ->; discriminate C). destruct (split_eq n) as [kv|]; cbn; intuition (try discriminate; try congruence).
Qed.
Lemma split_eq_at k v : ~ In "="%char k -> split_eq (k ++ $"=" ++ v) = Some (k, v).
Proof.
  induction k as [|c k IH]; intros N; [reflexivity|]. cbn [app split_eq]. destruct (ascii_eqb c "="%char) eqn:C.
  - apply ascii_eqb_eq in C as ->. destruct N. now left.
  - rewrite IH; [reflexivity|]. intros I. apply N. now right.
Qed.
Lemma option_name_inv w n : option_name w = Some n ->
  (w = $"-" ++ n /\ two_dashes w = false /\ n <> []) \/ (w = $"--" ++ n /\ two_dashes w = true).
Proof.
  destruct w as [|a [|b r]]; try discriminate. cbn [option_name]. destruct (ascii_eqb a "-"%char) eqn:A; [|discriminate]. apply ascii_eqb_eq in A as ->.
  destruct (ascii_eqb b "-"%char) eqn:B; intros E; injection E as <-.
  - apply ascii_eqb_eq in B as ->. right. split; reflexivity.
  - left. split; [reflexivity|]. split; [|discriminate]. unfold two_dashes. cbn [prefixb lit].
    change (prefixb $"--" ("-"%char :: b :: r)) with (ascii_eqb "-"%char "-"%char && (ascii_eqb "-"%char b && true)).
    destruct (ascii_eqb "-"%char b) eqn:B'; [|reflexivity]. apply ascii_eqb_eq in B' as <-. discriminate B.
Qed.
Lemma option_name_none w : option_name w = None <-> undashed w.
Proof.
  unfold undashed. destruct w as [|a [|b r]]; cbn [option_name].
  - split; [intros _; right; intros r E; discriminate E|reflexivity].
  - split; [intros _|reflexivity]. destruct (ascii_eqb a "-"%char) eqn:A; [apply ascii_eqb_eq in A as ->; now left|].
    right. intros r E. injection E as -> <-. discriminate A.
  - destruct (ascii_eqb a "-"%char) eqn:A.
    + apply ascii_eqb_eq in A as ->. split; [discriminate|]. intros [E|E]; [discriminate E|]. destruct (E (b :: r)). reflexivity.
    + split; [intros _|reflexivity]. right. intros r' E. injection E as -> <-. discriminate A.
Qed.
Lemma option_name_one n c r : n = c :: r -> c <> "-"%char -> option_name ($"-" ++ n) = Some n /\ two_dashes ($"-" ++ n) = false.
Proof.
  intros -> N. assert (B : ascii_eqb c "-"%char = false) by (destruct (ascii_eqb c "-"%char) eqn:B; [apply ascii_eqb_eq in B; contradiction|reflexivity]).
  assert (B' : ascii_eqb "-"%char c = false) by (destruct (ascii_eqb "-"%char c) eqn:B'; [apply ascii_eqb_eq in B'; now subst|reflexivity]).
  split.
  - change (option_name ($"-" ++ c :: r)) with (Some (if ascii_eqb c "-"%char then r else c :: r)). now rewrite B.
  - change (two_dashes ($"-" ++ c :: r)) with (ascii_eqb "-"%char "-"%char && (ascii_eqb "-"%char c && true)). now rewrite B'.
Qed.
Lemma option_name_two n : option_name ($"--" ++ n) = Some n /\ two_dashes ($"--" ++ n) = true.
Proof. split; reflexivity. Qed.

Lemma digits_value_some ds n z : digits_value ds n = Some z -> Forall (fun c => isdigit c = true) ds.
Proof.
  revert n. induction ds as [|c ds IH]; intros n E; [constructor|]. cbn [digits_value] in E. destruct (isdigit c) eqn:D; [|discriminate]. constructor; [exact D|]. eapply IH, E.
Qed.
Lemma digits_forall ds : digits ds <-> ds <> [] /\ Forall (fun c => isdigit c = true) ds.
Proof. unfold digits. now rewrite Forall_forall. Qed.
Lemma digits_value_all ds : Forall (fun c => isdigit c = true) ds -> digits_value ds 0 = Some (value_of_digits ds).
Proof. intros F. rewrite (digits_value_spec _ _ F). reflexivity. Qed.
Lemma int_of_spec t z : int_of t = Some z <-> number t z.
Proof.
  unfold number. split.
  - intros E. destruct t as [|c ds]; [discriminate|]. unfold int_of in E. destruct (ascii_eqb c "-"%char) eqn:C.
    + apply ascii_eqb_eq in C as ->. destruct ds as [|d ds]; [discriminate|]. destruct (digits_value (d :: ds) 0) as [v|] eqn:V; [|discriminate]. cbn in E. injection E as <-.
      pose proof (digits_value_some _ _ _ V) as F. rewrite (digits_value_all _ F) in V. assert (Ev : v = value_of_digits (d :: ds)) by congruence. clear V. subst v.
      exists (d :: ds). split; [apply digits_forall; split; [discriminate|exact F]|]. right. split; reflexivity.
    + pose proof (digits_value_some _ _ _ E) as F. rewrite (digits_value_all _ F) in E. assert (Ev : z = value_of_digits (c :: ds)) by congruence. clear E. subst z.
      exists (c :: ds). split; [apply digits_forall; split; [discriminate|exact F]|]. left. split; reflexivity.
  - intros (ds & D & [(-> & ->)|(-> & ->)]); apply digits_forall in D as (N & F).
    + destruct ds as [|c ds]; [contradiction|]. unfold int_of. destruct (ascii_eqb c "-"%char) eqn:C.
      * apply ascii_eqb_eq in C as ->. inversion F as [|? ? X _]. discriminate X.
      * apply (digits_value_all _ F).
    + destruct ds as [|c ds]; [contradiction|]. change (int_of ($"-" ++ c :: ds)) with (option_map Z.opp (digits_value (c :: ds) 0)).
      rewrite (digits_value_all _ F). reflexivity.
Qed.
Lemma is_value_spec v : is_value v = true <-> argument v.
Proof.
  unfold is_value, argument. destruct (option_name v) as [n|] eqn:O.
  - assert (U : ~ undashed v) by (rewrite <- option_name_none; congruence). destruct (int_of v) as [z|] eqn:E.
    + split; [intros _|reflexivity]. right. apply int_of_spec in E as (ds & D & [(-> & _)|(-> & _)]); [|eauto].
      exfalso. apply option_name_inv in O as [(-> & _)|(-> & _)]; apply digits_forall in D as (_ & F); inversion F as [|? ? X _]; discriminate X.
    + split; [discriminate|]. intros [A|(ds & D & ->)]; [contradiction|]. assert (X : int_of ($"-" ++ ds) = Some (- value_of_digits ds)%Z) by (apply int_of_spec; exists ds; auto). congruence.
  - split; [intros _; left; now apply option_name_none|reflexivity].
Qed.

Section Reading.
Variables flags valued : list str.
Hypothesis Good : good_names flags valued = true.
Lemma flag_good n : In n flags -> proper n = true /\ ~ In n valued /\ starts_j n = false.
Proof.
  intros I. unfold good_names in Good. apply andb_true_iff in Good as (G & _). rewrite forallb_forall in G. specialize (G n I).
  apply andb_true_iff in G as (G & C). apply andb_true_iff in G as (A & B). apply negb_true_iff in B, C. now rewrite mem_not in B.
Qed.
Lemma valued_good n : In n valued -> proper n = true /\ (starts_j n = true -> n = $"j").
Proof.
  intros I. unfold good_names in Good. apply andb_true_iff in Good as (_ & G). rewrite forallb_forall in G. specialize (G n I).
  apply andb_true_iff in G as (A & B). split; [exact A|]. intros S. rewrite S in B. now apply str_eqb_eq.
Qed.
Lemma flags_name n w : In n flags -> w = $"-" ++ n \/ w = $"--" ++ n -> option_name w = Some n.
Proof.
  intros I W. destruct (flag_good n I) as (P & _). destruct (proper_spec n P) as (c & r & E & N & _). destruct W as [->| ->]; [now apply (option_name_one n c r)|reflexivity].
Qed.
Lemma named_name n w t : In n valued -> named n w -> option_name (w ++ t) = Some (n ++ t) /\ two_dashes (w ++ t) && str_eqb n $"j" = false.
Proof.
  intros I W. destruct (valued_good n I) as (P & _). destruct (proper_spec n P) as (c & r & E & N & _). destruct W as [->|(-> & J)]; rewrite <- app_assoc.
  - destruct (option_name_one (n ++ t) c (r ++ t)) as (A & B); [now rewrite E|exact N|]. now rewrite A, B.
  - destruct (option_name_two (n ++ t)) as (A & B). rewrite A, B. split; [reflexivity|]. destruct (str_eqb n $"j") eqn:Q; [apply str_eqb_eq in Q; contradiction|reflexivity].
Qed.
Lemma with_equals_not n t : ~ In (n ++ $"=" ++ t) flags /\ ~ In (n ++ $"=" ++ t) valued.
Proof.
  assert (E : In "="%char (n ++ $"=" ++ t)) by (apply in_app_iff; right; now left).
  split; intros I; [apply flag_good in I as (P & _)|apply valued_good in I as (P & _)]; apply proper_spec in P as (_ & _ & _ & _ & N); contradiction.
Qed.
Lemma with_j_not v : v <> [] -> ~ In ($"j" ++ v) flags /\ ~ In ($"j" ++ v) valued.
Proof.
  intros N. split; intros I.
  - apply flag_good in I as (_ & _ & S). discriminate S.
  - apply valued_good in I as (_ & S). specialize (S eq_refl). destruct v; [contradiction|discriminate S].
Qed.
Lemma parse_reads ws is : reads flags valued ws is -> parse flags valued ws = Some (collect is).
Proof.
  induction 1 as [|n w ws is I W R IH|n w v ws is I W V R IH|n w v ws is I W R IH|v ws is I N E R IH|w ws is U R IH].
  - reflexivity.
  - cbn [parse]. rewrite (flags_name n w I W). apply mem_in in I. rewrite I, IH. reflexivity.
  - cbn [parse]. destruct (named_name n w [] I W) as (A & B). rewrite (app_nil_r w) in A, B. rewrite (app_nil_r n) in A. rewrite A, B.
    destruct (mem n flags) eqn:M; [apply mem_in, flag_good in M as (_ & M & _); contradiction|]. apply mem_in in I. rewrite I. cbn [andb negb].
    apply is_value_spec in V. rewrite V, IH. reflexivity.
  - cbn [parse]. destruct (named_name n w ($"=" ++ v) I W) as (A & B). rewrite A. destruct (with_equals_not n v) as (F & G). apply mem_not in F, G. rewrite F, G. cbn [andb].
    unfold attached. destruct (valued_good n I) as (P & _). destruct (proper_spec n P) as (_ & _ & _ & _ & E). rewrite (split_eq_at n v E).
    apply mem_in in I. rewrite I, B. cbn [andb negb]. rewrite IH. reflexivity.
  - cbn [parse]. destruct v as [|d v]; [contradiction|].
    change (option_name ($"-j" ++ d :: v)) with (Some ($"j" ++ d :: v)). cbv iota. destruct (with_j_not (d :: v) N) as (F & G). apply mem_not in F, G. rewrite F, G. cbn [andb].
    unfold attached. assert (X : split_eq ($"j" ++ d :: v) = None) by (apply split_eq_none; intros [X|X]; [discriminate X|contradiction]). rewrite X.
    apply mem_in in I. change ($"j" ++ d :: v) with ("j"%char :: d :: v). rewrite I. change (two_dashes ($"-j" ++ d :: v)) with false. change (ascii_eqb "j"%char "j"%char) with true. cbn [andb negb].
    rewrite IH. reflexivity.
  - cbn [parse]. apply option_name_none in U. rewrite U, IH. reflexivity.
Qed.
Lemma parse_some ws p : parse flags valued ws = Some p -> exists is, reads flags valued ws is /\ p = collect is.
Proof.
  remember (length ws) as k eqn:K. assert (L : length ws <= k) by lia. clear K. revert ws p L. induction k as [|k IH]; intros [|w ws] p L E; cbn [length] in L; try lia.
  - cbn in E. injection E as <-. exists []. split; [constructor|reflexivity].
  - cbn in E. injection E as <-. exists []. split; [constructor|reflexivity].
  - assert (R : forall q, parse flags valued ws = Some q -> exists is, reads flags valued ws is /\ q = collect is) by (intros q; apply IH; lia).
    cbn [parse] in E. destruct (option_name w) as [n|] eqn:O.
    + destruct (mem n flags) eqn:F.
      * destruct (parse flags valued ws) as [q|]; [|discriminate]. cbn in E. injection E as <-. destruct (R q eq_refl) as (is & H & ->). exists (Flag n :: is). split; [|reflexivity].
        apply r_flag; [now apply mem_in| |exact H]. apply option_name_inv in O as [(-> & _)|(-> & _)]; auto.
      * destruct (mem n valued && negb (two_dashes w && str_eqb n $"j")) eqn:V.
        -- apply andb_true_iff in V as (V & J). apply negb_true_iff in J. destruct ws as [|v ws]; [discriminate|]. destruct (is_value v) eqn:A; [|discriminate].
           destruct (parse flags valued ws) as [q|] eqn:Q; [|discriminate]. cbn in E. injection E as <-. destruct (IH ws q) as (is & H & ->); [cbn [length] in L; lia|exact Q|].
           exists (Opt n v :: is). split; [|reflexivity]. apply r_next; [now apply mem_in| |now apply is_value_spec|exact H].
           apply option_name_inv in O as [(-> & _)|(-> & T)]; [now left|]. right. split; [reflexivity|]. rewrite T in J. intros ->. discriminate J.
        -- clear V. destruct (attached valued w n) as [kv|] eqn:A; [|discriminate]. destruct (parse flags valued ws) as [q|]; [|discriminate]. cbn in E. injection E as <-.
           destruct (R q eq_refl) as (is & H & ->). exists (Opt (fst kv) (snd kv) :: is). split; [|now destruct kv].
           unfold attached in A. destruct (split_eq n) as [(k' & v)|] eqn:Sp.
           ++ destruct (mem k' valued && negb (two_dashes w && str_eqb k' $"j")) eqn:V; [|discriminate]. injection A as <-. cbn [fst snd]. apply andb_true_iff in V as (V & J). apply negb_true_iff in J.
              destruct (split_eq_some _ _ _ Sp) as (-> & _).
              apply option_name_inv in O as [(-> & _)|(-> & T)]; rewrite app_assoc; (apply r_equals; [now apply mem_in| |exact H]).
              ** now left.
              ** right. split; [reflexivity|]. rewrite T in J. intros ->. discriminate J.
           ++ destruct n as [|c [|d v]]; try discriminate. destruct (ascii_eqb c "j"%char) eqn:C; [|discriminate]. destruct (mem $"j" valued) eqn:V; [|discriminate].
              cbn [andb] in A. destruct (two_dashes w) eqn:T; [discriminate|]. cbn in A. injection A as <-. cbn [fst snd]. apply ascii_eqb_eq in C as ->.
              apply option_name_inv in O as [(-> & _)|(_ & T')]; [|congruence].
              change ($"-" ++ "j"%char :: d :: v) with ($"-j" ++ d :: v). apply r_joined; [now apply mem_in|discriminate| |exact H].
              apply split_eq_none in Sp. intros X. apply Sp. now right.
    + destruct (parse flags valued ws) as [q|]; [|discriminate]. cbn in E. injection E as <-. destruct (R q eq_refl) as (is & H & ->). exists (Word w :: is). split; [|reflexivity].
      apply r_word; [now apply option_name_none|exact H].
Qed.
Lemma parse_none ws : parse flags valued ws = None <-> ~ exists is, reads flags valued ws is.
Proof.
  split.
  - intros E (is & R). apply parse_reads in R. congruence.
  - intros N. destruct (parse flags valued ws) as [p|] eqn:E; [|reflexivity]. destruct N. destruct (parse_some ws p E) as (is & R & _). eauto.
Qed.
End Reading.

Lemma given_collect n is : given n (collect is) = has n is.
Proof.
  unfold given, has, mem, collect. cbn [a_flags]. induction is as [|[m|m v|w] is IH]; cbn [flat_map existsb app]; [reflexivity|..]; rewrite IH; [|reflexivity|reflexivity].
  f_equal. apply eq_true_iff_eq. rewrite !str_eqb_eq. split; congruence.
Qed.
Lemma last_cons {A} (x : A) l d : last (x :: l) d = last l x.
Proof. revert x d. induction l as [|y l IH]; intros x d; [reflexivity|]. change (last (x :: y :: l) d) with (last (y :: l) d). now rewrite !IH. Qed.
Lemma value_collect n d is : value n d (collect is) = chosen n d is.
Proof.
  unfold value, chosen, collect. cbn [a_values]. revert d. induction is as [|[m|m v|w] is IH]; intros d; cbn [flat_map app fold_left fst snd]; [reflexivity|apply IH| |apply IH].
  destruct (str_eqb m n); cbn [app]; [rewrite last_cons|]; apply IH.
Qed.
Lemma int_collect n is z : int_value n (collect is) = Some z <-> number (chosen n $"0" is) z.
Proof. unfold int_value. rewrite value_collect. apply int_of_spec. Qed.
Lemma modules_collect is ms : build_modules (collect is) = Some ms <-> selects is ms.
Proof.
  unfold build_modules, selects. cbn [collect a_words]. change OCLINT_MODULES with modules. destruct (free is) as [|m [|m' l]].
  - split; [intros E; injection E as <-; left; auto|]. intros [(_ & ->)|(m & E & _)]; [reflexivity|discriminate].
  - destruct (str_eqb m $"all") eqn:A.
    + apply str_eqb_eq in A as ->. split; [intros E; left; split; [now right|congruence]|]. intros [(_ & ->)|(m & E & I & _)]; [reflexivity|].
      injection E as <-. exfalso. apply in_modules in I. intuition discriminate.
    + destruct (mem m modules) eqn:M.
      * apply mem_in in M. split; [intros E; right; exists m; repeat split; [exact M|congruence]|].
        intros [([E|E] & _)|(x & E & _ & ->)]; [discriminate|injection E as ->; rewrite str_eqb_refl in A; discriminate|congruence].
      * apply mem_not in M. split; [discriminate|]. intros [([E|E] & _)|(x & E & I & ->)]; [discriminate|injection E as ->; rewrite str_eqb_refl in A; discriminate|]. injection E as ->. contradiction.
  - split; [discriminate|]. intros [([E|E] & _)|(x & E & _)]; discriminate.
Qed.

(** ** How a run ends *)

(** The events are the first steps of the plan, and then one that fails: the next one, or the change
    to a directory.  Nothing was done after that but to show the results that the failing command
    left.  The code is that of the failure. *)
Definition stops (td : list todo) (evs : list event) (code : Z) : Prop :=
  exists before e after done_,
    evs = before ++ e :: after
    /\ Forall2 does (steps before) done_ /\ existsb bad before = false /\ bad e = true
    /\ ((exists t rest, td = done_ ++ t :: rest /\ fails e t) \/ (exists d rest, e = Did (Chdir d) false /\ td = done_ ++ rest))
    /\ ((after = [] /\ code = status_of e)
        \/ exists dir cmd c p ok, e = Ran dir cmd c /\ after = [Did (ShowFile p) ok] /\ code = (if ok then status_of e else 1%Z)).
(** Either all steps of the plan were done, in order, nothing else, each with success, and the code
    is 0; or the run stopped at the first failure with another code.  What happened is what the
    machine answered. *)
Definition outcome (h : host) (td : list todo) (past : list event) (r : ending * proc) : Prop :=
  (from_machine h past -> from_machine h (p_past (snd r)))
  /\ exists evs, p_past (snd r) = past ++ evs
     /\ ((exit_status (fst r) = 0%Z /\ Forall2 does (steps evs) td /\ existsb bad evs = false)
         \/ (exit_status (fst r) <> 0%Z /\ stops td evs (exit_status (fst r)))).

Lemma follows_outcome h m c td c' s : codes h -> follows h m c td c' -> p_cwd s = c -> outcome h td (p_past s) (m s).
Proof.
  intros C (l & (_ & H) & F) Hs. specialize (H s Hs). destruct (same_status _ _ H) as (S1 & S2).
  split; [rewrite S2; apply perform_from_machine|].
  rewrite S1, S2. clear S1 S2 H. destruct (perform_ends h C l s) as [(k & evs & l1 & x & l2 & E & L & P & Fa)|(E & P & _)].
  2:{ exists (ok_events c l). rewrite E, P, Hs. split; [reflexivity|]. left. split; [reflexivity|]. split; [exact F|]. exact (ok_events_fine _ _ _ F). }
  rewrite Hs in *. exists (ok_events c l1 ++ evs). rewrite E, P. split; [reflexivity|]. right. split; [cbn; eapply failed_code, Fa|].
  cbn [exit_status]. clear P E. subst l. rewrite ok_events_app in F. unfold steps in F. rewrite filter_app in F. fold (steps (ok_events c l1)) in F.
  cbn [ok_events] in F. rewrite filter_app in F. set (d := ends c l1) in *. apply Forall2_app_inv_l in F as (t1 & t' & F1 & F2 & PL).
  pose proof (ok_events_fine _ _ _ F1) as B1.
  destruct x as [cmd|cmd f|op|p]; cbn [failed ok_one after_] in *.
  - destruct Fa as (-> & Nz & _). cbn [filter counts app] in F2. inversion F2 as [|? t ? rest D F3]; subst t'.
    exists (ok_events c l1), (Ran d cmd k), [], t1. split; [reflexivity|]. split; [exact F1|]. split; [exact B1|].
    split; [cbn; apply negb_true_iff; now apply Z.eqb_neq|]. split; [|left; auto].
    left. exists t, rest. split; [exact PL|]. eapply fails_of; [exact D|]. cbn; auto.
  - cbn [filter counts app] in F2. inversion F2 as [|? t ? rest D F3]; subst t'. inversion F3 as [|? u ? rest2 D2 F4]; subst rest.
    destruct Fa as [(-> & ->)|(k' & ok & -> & Nk & _ & ->)].
    + exists (ok_events c l1 ++ [Ran d cmd 0]), (Did (ShowFile f) false), [], (t1 ++ [t]).
      split; [now rewrite <- app_assoc|]. split; [unfold steps; rewrite filter_app; apply Forall2_app; [exact F1|now repeat constructor]|].
      split; [rewrite existsb_app, B1; reflexivity|]. split; [reflexivity|]. split; [|left; auto].
      left. exists u, rest2. split; [rewrite <- app_assoc; exact PL|]. eapply fails_of; [exact D2|]. cbn; auto.
    + exists (ok_events c l1), (Ran d cmd k'), [Did (ShowFile f) ok], t1. split; [reflexivity|]. split; [exact F1|]. split; [exact B1|].
      split; [cbn; apply negb_true_iff; now apply Z.eqb_neq|]. split.
      * left. exists t, (u :: rest2). split; [exact PL|]. eapply fails_of; [exact D|]. cbn; auto.
      * right. exists d, cmd, k', f, ok. split; [reflexivity|]. split; [reflexivity|]. destruct ok; reflexivity.
  - destruct Fa as (-> & ->). exists (ok_events c l1), (Did op false), [], t1. split; [reflexivity|]. split; [exact F1|]. split; [exact B1|].
    destruct (counts (Did op true)) eqn:Cn.
    + cbn [filter] in F2. rewrite Cn in F2. cbn [app] in F2. inversion F2 as [|? t ? rest D F3]; subst t'.
      split; [destruct op; try reflexivity; destruct t; cbn [does] in D; try discriminate D; destruct D as (? & D & _); discriminate D|].
      split; [|left; auto]. left. exists t, rest. split; [exact PL|]. eapply fails_of; [exact D|]. cbn; auto.
    + destruct op; try discriminate Cn. split; [reflexivity|]. split; [|left; auto]. right. exists p, t'. auto.
  - destruct Fa as (-> & ->). cbn [filter counts app] in F2. inversion F2 as [|? t ? rest D F3]; subst t'.
    exists (ok_events c l1), (Did (IsDir p) true), [], t1. split; [reflexivity|]. split; [exact F1|]. split; [exact B1|].
    split; [reflexivity|]. split; [|left; auto]. left. exists t, rest. split; [exact PL|]. eapply fails_of; [exact D|]. cbn; auto.
Qed.
(** Only the code and what happened matter. *)
Lemma outcome_same h td past r r' : exit_status (fst r') = exit_status (fst r) -> p_past (snd r') = p_past (snd r) -> outcome h td past r -> outcome h td past r'.
Proof. intros E P. unfold outcome. now rewrite E, P. Qed.
Lemma stops_more td td' evs code : stops td evs code -> stops (td ++ td') evs code.
Proof.
  intros (b & e & a & dn & E & F & B & Be & T & A). exists b, e, a, dn. repeat (split; [assumption|]). split; [|exact A].
  destruct T as [(t & rest & -> & Ft)|(d & rest & -> & ->)].
  - left. exists t, (rest ++ td'). split; [now rewrite <- app_assoc|exact Ft].
  - right. exists d, (rest ++ td'). split; [reflexivity|now rewrite <- app_assoc].
Qed.
Lemma stops_after td td' evs evs' code : Forall2 does (steps evs) td -> existsb bad evs = false -> stops td' evs' code -> stops (td ++ td') (evs ++ evs') code.
Proof.
  intros F0 B0 (b & e & a & dn & -> & F & B & Be & T & A). exists (evs ++ b), e, a, (td ++ dn). split; [now rewrite <- app_assoc|].
  split; [unfold steps; rewrite filter_app; now apply Forall2_app|]. split; [now rewrite existsb_app, B0|]. split; [exact Be|]. split; [|exact A].
  destruct T as [(t & rest & -> & Ft)|(d & rest & -> & ->)].
  - left. exists t, rest. split; [now rewrite <- app_assoc|exact Ft].
  - right. exists d, rest. split; [reflexivity|now rewrite <- app_assoc].
Qed.
Lemma outcome_seq h m n td td' s :
  outcome h td (p_past s) (m s) -> (fst (m s) = Done \/ exit_status (fst (m s)) <> 0%Z) ->
  (fst (m s) = Done -> outcome h td' (p_past (snd (m s))) (n (snd (m s)))) -> outcome h (td ++ td') (p_past s) ((m;; n) s).
Proof.
  intros O1 D O2. unfold seq. destruct (m s) as ([|c] & s1); cbn [fst snd] in *.
  - specialize (O2 eq_refl). destruct O1 as (M1 & evs & P & [(_ & F & B)|(X & _)]); [|now destruct X].
    destruct O2 as (M2 & evs2 & P2 & K). cbn [fst snd] in *. split; [auto|]. exists (evs ++ evs2). split; [now rewrite P2, P, app_assoc|].
    destruct K as [(E & F2 & B2)|(E & St)].
    + left. split; [exact E|]. split; [unfold steps; rewrite filter_app; now apply Forall2_app|now rewrite existsb_app, B, B2].
    + right. split; [exact E|]. now apply stops_after.
  - destruct D as [D|D]; [discriminate|]. destruct O1 as (M1 & evs & P & [(X & _)|(E & St)]); [contradiction|].
    split; [exact M1|]. exists evs. split; [exact P|]. right. split; [exact E|]. now apply stops_more.
Qed.
Lemma follows_end h m c td c' s : codes h -> follows h m c td c' -> p_cwd s = c ->
  (fst (m s) = Done /\ p_cwd (snd (m s)) = c') \/ exit_status (fst (m s)) <> 0%Z.
Proof.
  intros C (l & (N & H) & F) Hs. destruct (H s Hs) as (_ & K). pose proof (perform_ends h C l s) as D. destruct (m s) as ([|x] & s1); destruct (perform h l s) as ([|y] & s2); cbn [fst snd] in *; try contradiction.
  - left. split; [reflexivity|]. destruct D as [(? & ? & ? & ? & ? & D & _)|(_ & _ & D)]; [discriminate|]. rewrite K, D, Hs. exact N.
  - right. exact (proj2 K).
Qed.
Lemma outcome_exit_0 h m td s : outcome h td (p_past s) (m s) -> outcome h td (p_past s) ((m;; sys_exit 0) s).
Proof. apply outcome_same; unfold seq; destruct (m s) as ([|x] & s1); reflexivity. Qed.

(** ** The scripts *)
Definition start (h : host) : proc := {| p_cwd := under (h_root h) $"oclint-scripts"; p_past := [] |}.
Definition build_flags := [$"docgen"; $"release"; $"clean"; $"no-ninja"].
Definition test_flags := [$"show"; $"clean"; $"as-dep"; $"no-ninja"].
Definition check_flags := [$"enable-clang-static-analyzer"; $"show"].
Definition with_llvm := [$"j"; $"llvm-root"].

Section One.
Variable h : host.
Hypothesis Sane : sane h.
Let root := h_root h.
Let Root : good_root root := proj1 Sane.
Let Codes : codes h := sane_codes h Sane.
Notation follows := (follows h).
Let llvm0 := under root $"build/llvm-install".
Let scripts := under root $"oclint-scripts".

Lemma cpus_nonzero : h_cpus h <> 0%Z.
Proof. pose proof (proj1 (proj2 (proj2 (proj2 Sane)))) as C. lia. Qed.
Lemma follows_compile (nn : bool) j c : follows (if nn then make h j else ninja h j) c [Run c (compile (h_cpus h) (negb nn) j)] c.
Proof.
  unfold compile, make, ninja. destruct nn; cbn [negb]; destruct (j =? 0)%Z eqn:E.
  - apply Z.eqb_eq in E as ->. apply follows_call; [exact Codes|]. pose proof (jobs_words h $"make" (h_cpus h)) as K. unfold j_flag in *. cbn [Z.eqb] in *.
    rewrite (proj2 (Z.eqb_neq _ _) cpus_nonzero) in K. apply K; [now apply plain_lit|reflexivity].
  - apply follows_call; [exact Codes|]. apply jobs_words; [now apply plain_lit|now rewrite E].
  - apply follows_call; [exact Codes|]. apply sp_last. now apply plain_lit.
  - apply follows_call; [exact Codes|]. apply jobs_words; [now apply plain_lit|now rewrite E].
Qed.
Lemma follows_build_one llvm rel nn dg j m c : plain llvm -> In m modules ->
  follows (build_module h m llvm rel nn dg j) c (build_one root (h_cpus h) llvm rel (negb nn) dg j m) c.
Proof.
  intros Pl I. unfold build_module, build_one. cbv zeta. apply (follows_back h Codes) with (c' := built_in root m).
  rewrite !(built_at h Root m).
  apply (follows_seq h Codes _ _ c [Make _] c [Run _ _; Run _ _]); [now apply follows_mk|].
  apply (follows_seq h Codes _ _ c [] (built_in root m) [Run _ _; Run _ _]); [now apply follows_cd|].
  apply (follows_seq h Codes _ _ _ [Run _ _] (built_in root m) [Run _ _]); [|apply follows_compile].
  apply follows_call; [exact Codes|]. exact (build_words h Root llvm m rel nn dg Pl I).
Qed.
Lemma follows_build_plan ms llvm cl rel nn dg j c : plain llvm -> incl ms modules ->
  follows (when cl (each ms (fun m => rm_f h (oclint_module_build_dir h m)));; each ms (fun m => build_module h m llvm rel nn dg j)) c
    (build_plan root (h_cpus h) ms llvm cl rel (negb nn) dg j) c.
Proof.
  intros Pl I. apply (follows_seq h Codes _ _ c _ c).
  - apply follows_when. intros _. apply follows_map; [exact Codes|]. intros m _. rewrite (built_at h Root m). now apply follows_rm.
  - apply follows_each; [exact Codes|]. intros m J. apply follows_build_one; auto.
Qed.
Lemma follows_test_one llvm ad nn j m c : plain llvm -> In m modules ->
  follows (test_module h m llvm ad nn j) c (test_one root (h_tmp h) (h_cpus h) llvm (negb ad) (negb nn) j m) c.
Proof.
  intros Pl I. unfold test_module, test_one. cbv zeta. apply (follows_back h Codes) with (c' := tested_in root m).
  rewrite !(tested_at h Root m). cbn [app].
  apply (follows_seq h Codes _ _ c [Make _] c (Run _ _ :: Run _ _ :: _)); [now apply follows_mk|].
  apply (follows_seq h Codes _ _ c [] (tested_in root m) (Run _ _ :: Run _ _ :: _)); [now apply follows_cd|].
  apply (follows_seq h Codes _ _ _ [Run _ _] (tested_in root m) (Run _ _ :: _)).
  { apply follows_call; [exact Codes|]. exact (test_words h Root llvm m ad nn Pl I). }
  apply (follows_seq h Codes _ _ _ [Run _ _] (tested_in root m)); [apply follows_compile|].
  apply follows_when. intros _.
  apply (follows_seq h Codes _ _ _ _ (tested_in root m)); [|now apply (follows_ctest h Sane)].
  apply follows_when. intros _. unfold headers. pose proof (follows_headers h Sane (tested_in root m)) as H. rewrite under_under in H. exact H.
Qed.
Lemma follows_test_plan ms llvm cl ad nn j c : plain llvm -> incl ms modules ->
  follows (when cl (each ms (fun m => rm_f h (oclint_module_test_dir h m)));; each ms (fun m => test_module h m llvm ad nn j)) c
    (test_plan root (h_tmp h) (h_cpus h) ms llvm cl (negb ad) (negb nn) j) c.
Proof.
  intros Pl I. apply (follows_seq h Codes _ _ c _ c).
  - apply follows_when. intros _. apply follows_map; [exact Codes|]. intros m _. rewrite (tested_at h Root m). now apply follows_rm.
  - apply follows_each; [exact Codes|]. intros m J. apply follows_test_one; auto.
Qed.
Lemma follows_show_file p c : follows (fileop_ h (ShowFile p)) c [Show p] c.
Proof. apply (follows_act h Codes (AOp (ShowFile p)) c). now apply one. Qed.
Lemma follows_show_tests ms c : follows (each ms (display_test_result h)) c (map (fun m => Show (results root m)) ms) c.
Proof.
  apply follows_map; [exact Codes|]. intros m _. unfold display_test_result, test_result_path, results. rewrite (tested_at h Root m). rewrite (tested_end h m).
  apply follows_show_file.
Qed.
Lemma follows_show_checks ms c : follows (each ms (display_result h)) c (map (fun m => Show (findings root m)) ms) c.
Proof.
  apply follows_map; [exact Codes|]. intros m _. unfold display_result, result_path, findings. rewrite (checked_at h Root m). rewrite (checked_end h m).
  apply follows_show_file.
Qed.
Lemma follows_check_one llvm an m c : plain llvm -> In m modules ->
  follows (rm_f h (oclint_module_dogfooding_dir h m);; dogfooding_build h m llvm;; dogfooding h m an) c (check_one root llvm an m) c.
Proof.
  intros Pl I. unfold dogfooding_build, dogfooding, check_one, display_result, result_path, bundle_dir, findings. cbv zeta.
  rewrite !(checked_at h Root m), !(source_at h Root m). rewrite !(checked_end h), !(source_end h) by exact I.
  apply (follows_seq h Codes _ _ c [Remove _] c (Make _ :: _)); [now apply follows_rm|].
  apply (follows_seq h Codes _ _ c [Make _; Run _ _; CopyFile _ _] c [Run _ _; Show _]).
  - apply (follows_seq h Codes _ _ c [Make _; Run _ _] c [CopyFile _ _]); [|now apply follows_cp].
    apply (follows_back h Codes) with (c' := checked_in root m).
    apply (follows_seq h Codes _ _ c [Make _] c [Run _ _]); [now apply follows_mk|].
    apply (follows_seq h Codes _ _ c [] (checked_in root m) [Run _ _]); [now apply follows_cd|].
    apply follows_call; [exact Codes|]. rewrite <- (source_at h Root m). apply (check_words h Root llvm m Pl I).
  - apply (follows_back h Codes) with (c' := source root m).
    apply (follows_seq h Codes _ _ c [] (source root m) [Run _ _; Show _]); [now apply follows_cd|].
    apply follows_show; [exact Codes|].
    rewrite (built_at h Root $"release"). unfold built_in. fold root.
    rewrite !(join_under root) by (now apply no_end_lit). rewrite (under_under root), join_under, under_under by (now apply no_end_lit).
    match goal with |- splits (?X ++ $" -o " ++ ?f) _ => set (front := X); set (file := f) end.
    assert (Pf : plain file) by (apply (checked_plain h Sane m _ I); now apply plains_lit).
    change (front ++ $" -o " ++ file) with (front ++ " "%char :: ($"-o" ++ " "%char :: file)).
    unfold run_check. fold root. rewrite app_assoc. apply splits_app; [|apply sp_word; [now apply plain_lit|now apply sp_last]].
    unfold front. match goal with |- context [?x ++ $" -- -max-priority-1=0 -max-priority-2=0 -max-priority-3=0"] => set (tool := x) end.
    assert (B : splits (tool ++ $" -- -max-priority-1=0 -max-priority-2=0 -max-priority-3=0") [tool; $"--"; $"-max-priority-1=0"; $"-max-priority-2=0"; $"-max-priority-3=0"]).
    { change (tool ++ $" -- -max-priority-1=0 -max-priority-2=0 -max-priority-3=0")
        with (tool ++ " "%char :: $"--" ++ " "%char :: $"-max-priority-1=0" ++ " "%char :: $"-max-priority-2=0" ++ " "%char :: $"-max-priority-3=0").
      apply sp_word; [apply plain_under; [apply Root|now apply plains_lit]|]. do 3 (apply sp_word; [now apply plain_lit|]). apply sp_last. now apply plain_lit. }
    destruct an; cbn [if_]; [|rewrite app_nil_r; exact B].
    match goal with |- splits (?X ++ $" -enable-clang-static-analyzer") _ => change (X ++ $" -enable-clang-static-analyzer") with (X ++ " "%char :: $"-enable-clang-static-analyzer") end.
    apply (splits_app _ _ _ [$"-enable-clang-static-analyzer"]); [exact B|]. apply sp_last. now apply plain_lit.
Qed.
Lemma selects_incl is ms : selects is ms -> incl ms modules.
Proof. intros [(_ & ->)|(m & _ & I & ->)]; [intros x J; exact J|]. intros x [<-|[]]. exact I. Qed.

Lemma build_reads argv is ms z :
  reads build_flags with_llvm argv is -> selects is ms -> number (chosen $"j" $"0" is) z ->
  build_script h argv = (when (has $"clean" is) (each ms (fun m => rm_f h (oclint_module_build_dir h m)));;
    each ms (fun m => build_module h m (chosen $"llvm-root" llvm0 is) (has $"release" is) (has $"no-ninja" is) (has $"docgen" is) z)).
Proof.
  intros R S N. apply (parse_reads build_flags with_llvm eq_refl) in R. apply modules_collect in S. apply int_collect in N.
  unfold build_script. fold build_flags with_llvm. rewrite R, S, N, !given_collect, value_collect, (llvm_at h Root). reflexivity.
Qed.
Lemma test_reads argv is ms z :
  reads test_flags with_llvm argv is -> selects is ms -> number (chosen $"j" $"0" is) z ->
  test_script h argv = if has $"show" is then each ms (display_test_result h);; sys_exit 0 else
    when (has $"clean" is) (each ms (fun m => rm_f h (oclint_module_test_dir h m)));;
    each ms (fun m => test_module h m (chosen $"llvm-root" llvm0 is) (has $"as-dep" is) (has $"no-ninja" is) z).
Proof.
  intros R S N. apply (parse_reads test_flags with_llvm eq_refl) in R. apply modules_collect in S. apply int_collect in N.
  unfold test_script. fold test_flags with_llvm. rewrite R, S, N, !given_collect, value_collect, (llvm_at h Root). reflexivity.
Qed.
Lemma check_reads argv is ms :
  reads check_flags [$"llvm-root"] argv is -> selects is ms ->
  dogfooding_script h argv = if has $"show" is then each ms (display_result h);; sys_exit 0 else
    each ms (fun m => rm_f h (oclint_module_dogfooding_dir h m);; dogfooding_build h m (chosen $"llvm-root" llvm0 is);; dogfooding h m (has $"enable-clang-static-analyzer" is)).
Proof.
  intros R S. apply (parse_reads check_flags [$"llvm-root"] eq_refl) in R. apply modules_collect in S.
  unfold dogfooding_script. fold check_flags. rewrite R, S, !given_collect, value_collect, (llvm_at h Root). reflexivity.
Qed.
End One.

(** ** C145: the scripts one by one *)

(** build: the modules that are named, or all, are configured as the options say, and compiled. *)
Theorem c145_build : forall h argv is ms j, sane h ->
  reads build_flags with_llvm argv is -> selects is ms -> number (chosen $"j" $"0" is) j ->
  plain (chosen $"llvm-root" (under (h_root h) $"build/llvm-install") is) ->
  outcome h (build_plan (h_root h) (h_cpus h) ms (chosen $"llvm-root" (under (h_root h) $"build/llvm-install") is)
               (has $"clean" is) (has $"release" is) (negb (has $"no-ninja" is)) (has $"docgen" is) j) []
    (build_script h argv (start h)).
Proof.
  intros h argv is ms j Sn R S N P. rewrite (build_reads h Sn argv is ms j R S N). apply (follows_outcome h _ (p_cwd (start h)) _ (p_cwd (start h)) (start h) (sane_codes h Sn)); [|reflexivity].
  apply follows_build_plan; [exact Sn|exact P|eapply selects_incl, S].
Qed.
(** test: the same for the tests, which are then run; with -as-dep nothing is run, and with -show
    the results of an earlier run are shown. *)
Theorem c145_test : forall h argv is ms j, sane h ->
  reads test_flags with_llvm argv is -> selects is ms -> number (chosen $"j" $"0" is) j ->
  plain (chosen $"llvm-root" (under (h_root h) $"build/llvm-install") is) ->
  outcome h (if has $"show" is then map (fun m => Show (results (h_root h) m)) ms
             else test_plan (h_root h) (h_tmp h) (h_cpus h) ms (chosen $"llvm-root" (under (h_root h) $"build/llvm-install") is)
                    (has $"clean" is) (negb (has $"as-dep" is)) (negb (has $"no-ninja" is)) j) []
    (test_script h argv (start h)).
Proof.
  intros h argv is ms j Sn R S N P. rewrite (test_reads h Sn argv is ms j R S N). destruct (has $"show" is).
  - apply (outcome_exit_0 h _ _ (start h)). apply (follows_outcome h _ (p_cwd (start h)) _ (p_cwd (start h)) (start h) (sane_codes h Sn)); [|reflexivity]. now apply follows_show_tests.
  - apply (follows_outcome h _ (p_cwd (start h)) _ (p_cwd (start h)) (start h) (sane_codes h Sn)); [|reflexivity].
    apply follows_test_plan; [exact Sn|exact P|eapply selects_incl, S].
Qed.
(** dogFooding: OCLint checks its own modules. *)
Theorem c145_dogfooding : forall h argv is ms, sane h ->
  reads check_flags [$"llvm-root"] argv is -> selects is ms ->
  plain (chosen $"llvm-root" (under (h_root h) $"build/llvm-install") is) ->
  outcome h (if has $"show" is then map (fun m => Show (findings (h_root h) m)) ms
             else check_plan (h_root h) ms (chosen $"llvm-root" (under (h_root h) $"build/llvm-install") is) (has $"enable-clang-static-analyzer" is)) []
    (dogfooding_script h argv (start h)).
Proof.
  intros h argv is ms Sn R S P. rewrite (check_reads h Sn argv is ms R S). destruct (has $"show" is).
  - apply (outcome_exit_0 h _ _ (start h)). apply (follows_outcome h _ (p_cwd (start h)) _ (p_cwd (start h)) (start h) (sane_codes h Sn)); [|reflexivity]. now apply follows_show_checks.
  - apply (follows_outcome h _ (p_cwd (start h)) _ (p_cwd (start h)) (start h) (sane_codes h Sn)); [|reflexivity].
    apply follows_each; [exact (sane_codes h Sn)|]. intros m I. apply follows_check_one; [exact Sn|exact P|]. eapply selects_incl; eauto.
Qed.

(** googleTest *)
Section Gtest.
Variable h : host.
Hypothesis Sane : sane h.
Let root := h_root h.
Let Root : good_root root := proj1 Sane.
Let Codes : codes h := sane_codes h Sane.
Lemma gtest_reads argv is z task :
  reads [$"clean"] with_llvm argv is -> number (chosen $"j" $"0" is) z -> free is = [task] ->
  googletest_script h argv =
    (if mem task [$"checkout"; $"co"] then
       if_dir h (under root $"googletest") (sys_exit 1) (and_back h (cd h (h_root h);; call h ($"git clone https://github.com/google/googletest.git googletest")))
     else if mem task [$"update"; $"up"] then if_dir h (under root $"googletest") (and_back h (cd h (under root $"googletest");; call h $"git pull")) (sys_exit 1)
     else if str_eqb task $"build" then
       when (has $"clean" is) (rm_f h (under root $"build/googletest/lib"));;
       and_back h (mkdir_p h (under root $"build/googletest/lib");; cd h (under root $"build/googletest/lib");; call h (googletest_command h);; make h z)
     else usage).
Proof.
  intros R N T. apply (parse_reads [$"clean"] with_llvm eq_refl) in R. apply int_collect in N.
  unfold googletest_script. fold with_llvm. rewrite R, N. cbn [collect a_words]. rewrite T. fold (collect is). rewrite given_collect, (gtest_at h Root), (gtest_build_at h Root). reflexivity.
Qed.
Lemma follows_get c : follows h (if_dir h (under root $"googletest") (sys_exit 1) (and_back h (cd h (h_root h);; call h ($"git clone https://github.com/google/googletest.git googletest")))) c (gtest_get root) c.
Proof. pose proof (follows_checkout h Sane c) as H. cbn in H. unfold root. rewrite <- (gtest_at h Root). exact H. Qed.
Lemma follows_gmake cl z c :
  follows h (when cl (rm_f h (under root $"build/googletest/lib"));;
       and_back h (mkdir_p h (under root $"build/googletest/lib");; cd h (under root $"build/googletest/lib");; call h (googletest_command h);; make h z)) c
    (gtest_make root (h_cpus h) (is_darwin h) cl z) c.
Proof.
  unfold gtest_make. cbv zeta. set (d := under root $"build/googletest/lib").
  apply (follows_seq h Codes _ _ c _ c); [apply follows_when; intros _; now apply follows_rm|].
  apply (follows_back h Codes) with (c' := d).
  apply (follows_seq h Codes _ _ c [Make _] c [RunText _ _; Run _ _]); [now apply follows_mk|].
  apply (follows_seq h Codes _ _ c [] d [RunText _ _; Run _ _]); [now apply follows_cd|].
  apply (follows_seq h Codes _ _ d [RunText _ _] d [Run _ _]).
  - match goal with |- context [RunText d ?t] => assert (Q : googletest_command h = t) end.
    { unfold googletest_command. rewrite (gtest_at h Root). fold root. now destruct (is_darwin h). }
    rewrite Q. now apply follows_text.
  - pose proof (follows_compile h Sane true z d) as K. unfold compile in K. cbn [negb] in K. destruct (z =? 0)%Z; exact K.
Qed.
End Gtest.
(** googleTest: checkout (co) gets the sources when there are none, update (up) those that there
    are, and build compiles them. *)
Theorem c145_google_test : forall h argv is j mac, sane h -> (mac = true <-> runs_on $"darwin" (h_kernel h)) ->
  reads [$"clean"] with_llvm argv is -> number (chosen $"j" $"0" is) j ->
  (free is = [$"checkout"] \/ free is = [$"co"] -> outcome h (gtest_get (h_root h)) [] (googletest_script h argv (start h)))
  /\ (free is = [$"build"] -> outcome h (gtest_make (h_root h) (h_cpus h) mac (has $"clean" is) j) [] (googletest_script h argv (start h)))
  /\ (free is = [$"update"] \/ free is = [$"up"] ->
        let there := h_does h [] (p_cwd (start h)) (IsDir (under (h_root h) $"googletest")) in
        let r := googletest_script h argv (start h) in
        let first := [Did (IsDir (under (h_root h) $"googletest")) there] in
        if there then outcome h [Run (under (h_root h) $"googletest") [$"git"; $"pull"]] first r else exit_status (fst r) = 1%Z /\ p_past (snd r) = first).
Proof.
  intros h argv is j mac Sn Y R N.
  assert (D : mac = is_darwin h) by (apply eq_true_iff_eq; unfold is_darwin; now rewrite prefix_runs).
  split; [|split].
  - intros T. assert (E : googletest_script h argv = if_dir h (under (h_root h) $"googletest") (sys_exit 1) (and_back h (cd h (h_root h);; call h ($"git clone https://github.com/google/googletest.git googletest")))).
    { destruct T as [T|T]; rewrite (gtest_reads h Sn argv is j _ R N T); reflexivity. }
    rewrite E. apply (follows_outcome h _ (p_cwd (start h)) _ (p_cwd (start h)) (start h) (sane_codes h Sn)); [|reflexivity]. now apply follows_get.
  - intros T. rewrite (gtest_reads h Sn argv is j _ R N T).
    change (mem $"build" [$"checkout"; $"co"]) with false. change (mem $"build" [$"update"; $"up"]) with false. change (str_eqb $"build" $"build") with true. cbv iota.
    rewrite D. apply (follows_outcome h _ (p_cwd (start h)) _ (p_cwd (start h)) (start h) (sane_codes h Sn)); [|reflexivity]. now apply follows_gmake.
  - intros T there r first.
    assert (E : googletest_script h argv = if_dir h (under (h_root h) $"googletest") (and_back h (cd h (under (h_root h) $"googletest");; call h $"git pull")) (sys_exit 1)).
    { destruct T as [T|T]; rewrite (gtest_reads h Sn argv is j _ R N T); reflexivity. }
    unfold r, first. rewrite E. unfold if_dir. unfold did. cbn [p_past p_cwd start]. change (h_does h [] (under (h_root h) $"oclint-scripts") (IsDir (under (h_root h) $"googletest"))) with there. destruct there eqn:Th; [|split; reflexivity].
    match goal with |- outcome h _ _ (_ ?s) => change [Did (IsDir (under (h_root h) $"googletest")) true] with (p_past s) end.
    apply (follows_outcome h _ (p_cwd (start h)) _ (p_cwd (start h)) _ (sane_codes h Sn)); [|reflexivity].
    apply (follows_back h (sane_codes h Sn)) with (c' := under (h_root h) $"googletest").
    apply (follows_seq h (sane_codes h Sn) _ _ _ [] (under (h_root h) $"googletest") [Run _ _]); [apply follows_cd; exact (sane_codes h Sn)|].
    apply follows_call; [exact (sane_codes h Sn)|]. change $"git pull" with ($"git" ++ " "%char :: $"pull"). apply sp_word; [now apply plain_lit|]. apply sp_last. now apply plain_lit.
Qed.
(** A command line that cannot be read, or asks for an unknown module or a number of jobs that is
    none, ends with 2, and nothing is done. *)
Theorem c145_refused : forall h argv,
  ((~ exists is ms j, reads build_flags with_llvm argv is /\ selects is ms /\ number (chosen $"j" $"0" is) j) -> build_script h argv (start h) = (Exits 2, start h))
  /\ ((~ exists is ms j, reads test_flags with_llvm argv is /\ selects is ms /\ number (chosen $"j" $"0" is) j) -> test_script h argv (start h) = (Exits 2, start h))
  /\ ((~ exists is ms, reads check_flags [$"llvm-root"] argv is /\ selects is ms) -> dogfooding_script h argv (start h) = (Exits 2, start h))
  /\ ((~ exists is j t, reads [$"clean"] with_llvm argv is /\ number (chosen $"j" $"0" is) j /\ free is = [t] /\ In t [$"checkout"; $"co"; $"update"; $"up"; $"build"])
      -> googletest_script h argv (start h) = (Exits 2, start h)).
Proof.
  intros h argv. split; [|split; [|split]]; intros No.
  - unfold build_script. fold build_flags with_llvm. destruct (parse build_flags with_llvm argv) as [p|] eqn:E; [|reflexivity].
    destruct (parse_some build_flags with_llvm argv p E) as (is & R & ->). destruct (build_modules (collect is)) as [ms|] eqn:B; [|reflexivity].
    destruct (int_value $"j" (collect is)) as [j|] eqn:J; [|reflexivity]. destruct No. exists is, ms, j. split; [exact R|]. split; [now apply modules_collect|now apply int_collect].
  - unfold test_script. fold test_flags with_llvm. destruct (parse test_flags with_llvm argv) as [p|] eqn:E; [|reflexivity].
    destruct (parse_some test_flags with_llvm argv p E) as (is & R & ->). destruct (build_modules (collect is)) as [ms|] eqn:B; [|reflexivity].
    destruct (int_value $"j" (collect is)) as [j|] eqn:J; [|reflexivity]. destruct No. exists is, ms, j. split; [exact R|]. split; [now apply modules_collect|now apply int_collect].
  - unfold dogfooding_script. fold check_flags. destruct (parse check_flags [$"llvm-root"] argv) as [p|] eqn:E; [|reflexivity].
    destruct (parse_some check_flags [$"llvm-root"] argv p E) as (is & R & ->). destruct (build_modules (collect is)) as [ms|] eqn:B; [|reflexivity].
    destruct No. exists is, ms. split; [exact R|]. now apply modules_collect.
  - unfold googletest_script. fold with_llvm. destruct (parse [$"clean"] with_llvm argv) as [p|] eqn:E; [|reflexivity].
    destruct (parse_some [$"clean"] with_llvm argv p E) as (is & R & ->). cbn [collect a_words]. destruct (free is) as [|t [|u l]] eqn:Fr; [reflexivity| |reflexivity].
    fold (collect is). destruct (int_value $"j" (collect is)) as [j|] eqn:J; [|reflexivity]. apply int_collect in J.
    assert (Out : ~ In t [$"checkout"; $"co"; $"update"; $"up"; $"build"]) by (intros I; destruct No; exists is, j, t; auto).
    destruct (mem t [$"checkout"; $"co"]) eqn:M1; [apply mem_in in M1; destruct Out; cbn [In] in *; tauto|].
    destruct (mem t [$"update"; $"up"]) eqn:M2; [apply mem_in in M2; destruct Out; cbn [In] in *; tauto|].
    destruct (str_eqb t $"build") eqn:M3; [apply str_eqb_eq in M3 as ->; destruct Out; cbn [In]; tauto|]. reflexivity.
Qed.
(** A command line has one reading: the same flags, options and words in the same order. *)
Theorem c145_one_reading : forall flags valued argv is is', good_names flags valued = true -> reads flags valued argv is -> reads flags valued argv is' ->
  (forall n, has n is = has n is') /\ (forall n d, chosen n d is = chosen n d is') /\ free is = free is'.
Proof.
  intros flags valued argv is is' G R R'. apply (parse_reads _ _ G) in R, R'. assert (E : collect is = collect is') by congruence.
  split; [intros n; now rewrite <- !given_collect, E|]. split; [intros n d; now rewrite <- !value_collect, E|]. exact (f_equal a_words E).
Qed.

(** ** Scripts that run others *)
Definition ci_flags := [$"reset"; $"setup"; $"release"; $"archive"].
Section Wrap.
Variable h : host.
Hypothesis Sane : sane h.
Let root := h_root h.
Let Root : good_root root := proj1 Sane.
Let Codes : codes h := sane_codes h Sane.
Notation follows := (follows h).
Let scripts := under root $"oclint-scripts".
Let llvm0 := under root $"build/llvm-install".

Lemma command_line_splits ws : ws <> [] -> Forall plain ws -> splits (command_line ws) ws.
Proof.
  intros N F. induction F as [|w ws P F IH]; [contradiction|]. destruct ws as [|v ws]; [now apply sp_last|].
  change (command_line (w :: v :: ws)) with (w ++ " "%char :: command_line (v :: ws)). apply sp_word; [exact P|]. apply IH. discriminate.
Qed.
Lemma follows_run_child m m' c td : follows m c td c ->
  (forall s, p_cwd s = c -> exit_status (fst (m' s)) = exit_status (fst (m s)) /\ p_past (snd (m' s)) = p_past (snd (m s))) -> follows (run_child m') c td c.
Proof.
  intros (l & (N & H) & F) Eq. exists l. split; [|exact F]. split; [exact N|]. intros s Hs. specialize (H s Hs). destruct H as (P & K). destruct (Eq s Hs) as (E1 & E2).
  pose proof (perform_ends h Codes l s) as D. unfold run_child. destruct (m' s) as (e' & s'). destruct (m s) as (e & s1). destruct (perform h l s) as (f & s2). cbn [fst snd] in *.
  rewrite E1. destruct e as [|x], f as [|y]; try contradiction; cbn [exit_status].
  - destruct D as [(? & ? & ? & ? & ? & D & _)|(_ & _ & D)]; [discriminate|]. split; [cbn; congruence|]. cbn. rewrite D, Hs, N. reflexivity.
  - destruct K as (K & Z0). apply Z.eqb_neq in Z0 as Z1. rewrite Z1. split; [cbn; congruence|]. cbn. rewrite Z.mod_mod by lia. split; [exact K|exact Z0].
Qed.
Lemma sh_run_child table name f args s : p_cwd s = scripts -> table name = Some f -> sh_run h table name args s = run_child (f args) s.
Proof. intros Hs T. unfold sh_run. rewrite Hs, (scripts_at h Root). fold root scripts. now rewrite str_eqb_refl, T. Qed.
Lemma follows_sh table name f args td : table name = Some f -> follows (f args) scripts td scripts -> follows (sh_run h table name args) scripts td scripts.
Proof.
  intros T F. apply (follows_ext h _ (run_child (f args))); [intros s Hs; now apply sh_run_child|]. apply (follows_run_child (f args)); [exact F|]. intros s _. auto.
Qed.
Lemma follows_sh_other table name args : table name = None -> Forall plain (($"./" ++ name) :: args) -> follows (sh_run h table name args) scripts [Run scripts (($"./" ++ name) :: args)] scripts.
Proof.
  intros T F. apply (follows_ext h _ (call h (command_line (($"./" ++ name) :: args)))).
  - intros s Hs. unfold sh_run. rewrite T. now destruct (str_eqb _ _).
  - apply follows_call; [exact Codes|]. apply command_line_splits; [discriminate|exact F].
Qed.
Lemma follows_words cmd ws c : cmd = command_line ws -> ws <> [] -> Forall plain ws -> follows (call h cmd) c [Run c ws] c.
Proof. intros -> N F. apply follows_call; [exact Codes|]. now apply command_line_splits. Qed.
Lemma follows_build_script argv is ms z c :
  reads build_flags with_llvm argv is -> selects is ms -> number (chosen $"j" $"0" is) z -> plain (chosen $"llvm-root" llvm0 is) ->
  follows (build_script h argv) c (build_plan root (h_cpus h) ms (chosen $"llvm-root" llvm0 is) (has $"clean" is) (has $"release" is) (negb (has $"no-ninja" is)) (has $"docgen" is) z) c.
Proof. intros R S N P. rewrite (build_reads h Sane argv is ms z R S N). apply follows_build_plan; [exact Sane|exact P|eapply selects_incl, S]. Qed.
Lemma follows_test_script argv is ms z c :
  reads test_flags with_llvm argv is -> selects is ms -> number (chosen $"j" $"0" is) z -> plain (chosen $"llvm-root" llvm0 is) -> has $"show" is = false ->
  follows (test_script h argv) c (test_plan root (h_tmp h) (h_cpus h) ms (chosen $"llvm-root" llvm0 is) (has $"clean" is) (negb (has $"as-dep" is)) (negb (has $"no-ninja" is)) z) c.
Proof. intros R S N P W. rewrite (test_reads h Sane argv is ms z R S N), W. apply follows_test_plan; [exact Sane|exact P|eapply selects_incl, S]. Qed.
Lemma number_0 : number $"0" 0.
Proof. exists $"0". split; [|left; split; reflexivity]. split; [discriminate|]. intros c [<-|[]]. reflexivity. Qed.
Lemma module_undashed m : In m modules -> undashed m.
Proof. intros I. apply option_name_none. apply in_modules in I as [->|[->|[->|[->| ->]]]]; reflexivity. Qed.

(** ci *)
Lemma ci_reads argv is z : reads ci_flags [$"j"] argv is -> free is = [] -> number (chosen $"j" $"0" is) z ->
  ci_script h argv = ci h {| c_reset := has $"reset" is; c_setup := has $"setup" is; c_release := has $"release" is; c_archive := has $"archive" is; c_j := z |}.
Proof.
  intros R F N. apply (parse_reads ci_flags [$"j"] eq_refl) in R. apply int_collect in N.
  unfold ci_script. fold ci_flags. rewrite R, N. cbn [collect a_words]. rewrite F. fold (collect is). now rewrite !given_collect.
Qed.
Lemma ci_resets a s : c_reset a = true -> ci h a s = (each (reset_removes root) (fun p => rm_f h p);; sys_exit 0) s.
Proof.
  intros R. unfold ci. rewrite R. rewrite (build_root_at h Root), (gtest_at h Root), !(source_at h Root). unfold module_source_dir. rewrite (root_under (h_root h) $"llvm" Root).
  unfold reset_removes. fold root. cbn [map each]. unfold source.
  change ($"oclint-" ++ $"json-compilation-database") with $"oclint-json-compilation-database". change ($"oclint-" ++ $"xcodebuild") with $"oclint-xcodebuild".
  unfold seq. repeat match goal with |- context [rm_f h ?p ?st] => destruct (rm_f h p st) as ([|?] & ?); [|reflexivity] end. reflexivity.
Qed.
Lemma follows_make_script args is z : reads ci_flags [$"j"] args is -> free is = [] -> number (chosen $"j" $"0" is) z -> has $"reset" is = false ->
  follows (make_script h args) scripts (make_plan root (h_tmp h) (h_cpus h) (h_python h) (is_darwin h) (is_unix h) (has $"archive" is) z) scripts.
Proof.
  intros R F N NR. unfold make_script, make_plan. apply (follows_seq h Codes _ _ scripts _ scripts).
  - apply (follows_ext h _ (run_child (ci_script h ($"-reset" :: args)))); [intros s Hs; now apply sh_run_child|].
    apply (follows_run_child (each (reset_removes root) (fun p => rm_f h p))).
    + unfold wipe, reset_removes. rewrite <- (map_map (under root) Remove). apply follows_map; [exact Codes|]. intros p _. now apply follows_rm.
    + intros s _. rewrite (ci_reads ($"-reset" :: args) (Flag $"reset" :: is) z); [|apply (r_flag _ _ $"reset"); [now left|now left|exact R]|exact F|exact N].
      rewrite ci_resets by reflexivity. unfold seq. destruct (each _ _ s) as ([|x] & s1); split; reflexivity.
  - apply (follows_sh _ _ (ci_script h)); [reflexivity|].
    rewrite (ci_reads _ (Flag $"setup" :: Flag $"release" :: is) z);
      [|apply (r_flag _ _ $"setup"); [right; now left|now left|apply (r_flag _ _ $"release"); [do 2 right; now left|now left|exact R]]|exact F|exact N].
    match goal with |- context [ci h ?x] => set (a := x) end.
    assert (A : c_reset a = false) by exact NR. pose proof (follows_ci h a Sane A) as K. exact K.
Qed.

(** docGen *)
Lemma build_docs m : In m modules ->
  follows (sh_run h (python_scripts h) $"build" [m; $"-docgen"; $"-no-ninja"]) scripts (build_one root (h_cpus h) llvm0 false false true 0 m) scripts.
Proof.
  intros I. apply (follows_sh _ _ (build_script h)); [reflexivity|].
  pose proof (follows_build_script [m; $"-docgen"; $"-no-ninja"] [Word m; Flag $"docgen"; Flag $"no-ninja"] [m] 0 scripts) as K.
  assert (B : build_plan root (h_cpus h) [m] llvm0 false false false true 0 = build_one root (h_cpus h) llvm0 false false true 0 m) by (unfold build_plan; cbn [if_ flat_map]; now rewrite app_nil_r).
  rewrite <- B. apply K.
  - apply r_word; [now apply module_undashed|]. apply (r_flag _ _ $"docgen"); [now left|now left|]. apply (r_flag _ _ $"no-ninja"); [do 3 right; now left|now left|constructor].
  - right. exists m. auto.
  - apply number_0.
  - apply (llvm_plain h Sane).
Qed.
Lemma follows_docgen : follows (docgen_script h) scripts (docs_plan root (h_cpus h)) (under scripts $"../build/").
Proof.
  unfold docgen_script, docs_plan. cbn [flat_map]. rewrite app_nil_r, <- !app_assoc. fold scripts llvm0.
  apply (follows_seq h Codes _ _ scripts _ scripts); [apply build_docs; now left|].
  apply (follows_seq h Codes _ _ scripts _ scripts); [apply build_docs; right; now left|].
  apply (follows_seq h Codes _ _ scripts _ scripts); [apply build_docs; do 2 right; now left|].
  apply (follows_seq h Codes _ _ scripts _ scripts); [apply build_docs; do 4 right; now left|].
  apply (follows_seq h Codes _ _ scripts [Run _ _] scripts [Run _ _; Run _ _; Run _ _]).
  { apply follows_sh_other; [reflexivity|]. repeat constructor; now apply plain_lit. }
  apply (follows_seq h Codes _ _ scripts [Run _ _] scripts [Run _ _; Run _ _]).
  { apply follows_words; [reflexivity|discriminate|repeat constructor; now apply plain_lit]. }
  apply (follows_seq h Codes _ _ scripts [Run _ _] scripts [Run _ _]).
  { apply follows_words; [reflexivity|discriminate|repeat constructor; now apply plain_lit]. }
  apply (follows_seq h Codes _ _ scripts [] (under scripts $"../build/") [Run _ _]).
  { apply (follows_ext h _ (cd h (under scripts $"../build/"))); [|now apply follows_cd].
    intros s Hs. rewrite Hs. unfold scripts. rewrite join_under by (now apply no_end_lit). reflexivity. }
  apply follows_words; [reflexivity|discriminate|repeat constructor; now apply plain_lit].
Qed.

(** gh-actions *)
Lemma sh_clang : follows (sh_run h (all_scripts h) $"clang" []) scripts [Run scripts [$"./clang"]] scripts.
Proof. apply follows_sh_other; [reflexivity|]. repeat constructor; now apply plain_lit. Qed.
Lemma sh_test (dep : bool) m : In m modules ->
  follows (sh_run h (all_scripts h) $"test" (m :: if dep then [$"-as-dep"; $"-no-ninja"] else [$"-no-ninja"])) scripts (test_one root (h_tmp h) (h_cpus h) llvm0 (negb dep) false 0 m) scripts.
Proof.
  intros I. apply (follows_sh _ _ (test_script h)); [reflexivity|].
  set (is := Word m :: (if dep then [Flag $"as-dep"; Flag $"no-ninja"] else [Flag $"no-ninja"])).
  pose proof (follows_test_script (m :: if dep then [$"-as-dep"; $"-no-ninja"] else [$"-no-ninja"]) is [m] 0 scripts) as K.
  assert (B : test_plan root (h_tmp h) (h_cpus h) [m] llvm0 false (negb dep) false 0 = test_one root (h_tmp h) (h_cpus h) llvm0 (negb dep) false 0 m) by (unfold test_plan; cbn [if_ flat_map]; now rewrite app_nil_r).
  rewrite <- B. assert (R : reads test_flags with_llvm (m :: if dep then [$"-as-dep"; $"-no-ninja"] else [$"-no-ninja"]) is).
  { unfold is. apply r_word; [now apply module_undashed|]. destruct dep.
    - apply (r_flag _ _ $"as-dep"); [do 2 right; now left|now left|]. apply (r_flag _ _ $"no-ninja"); [do 3 right; now left|now left|constructor].
    - apply (r_flag _ _ $"no-ninja"); [do 3 right; now left|now left|constructor]. }
  assert (S : selects is [m]) by (right; exists m; unfold is; destruct dep; auto).
  destruct dep; (apply K; [exact R|exact S|apply number_0|apply (llvm_plain h Sane)|reflexivity]).
Qed.
Lemma sh_gtest_get : follows (sh_run h (all_scripts h) $"googleTest" [$"co"]) scripts (gtest_get root) scripts.
Proof. apply (follows_sh _ _ (googletest_script h)); [reflexivity|]. exact (follows_checkout h Sane scripts). Qed.
Lemma sh_gtest_make : follows (sh_run h (all_scripts h) $"googleTest" [$"build"]) scripts (gtest_make root (h_cpus h) (is_darwin h) false 0) scripts.
Proof.
  apply (follows_sh _ _ (googletest_script h)); [reflexivity|]. rewrite (gtest_reads h Sane [$"build"] [Word $"build"] 0 $"build").
  - change (mem $"build" [$"checkout"; $"co"]) with false. change (mem $"build" [$"update"; $"up"]) with false. change (str_eqb $"build" $"build") with true. cbv iota.
    exact (follows_gmake h Sane false 0 scripts).
  - apply r_word; [now apply option_name_none|constructor].
  - apply number_0.
  - reflexivity.
Qed.
Lemma follows_gh_build rest : follows (gh_actions h ($"build" :: rest)) scripts (gh_build_plan root (h_cpus h)) scripts.
Proof.
  change (gh_actions h ($"build" :: rest)) with (sh_run h (all_scripts h) $"clang" [];; sh_run h (all_scripts h) $"build" [$"-no-ninja"];; sh_run h (all_scripts h) $"bundle" [$"-archive"]).
  unfold gh_build_plan. apply (follows_seq h Codes _ _ scripts _ scripts); [apply sh_clang|].
  apply (follows_seq h Codes _ _ scripts _ scripts).
  - apply (follows_sh _ _ (build_script h)); [reflexivity|]. apply (follows_build_script [$"-no-ninja"] [Flag $"no-ninja"] modules 0 scripts).
    + apply (r_flag _ _ $"no-ninja"); [do 3 right; now left|now left|constructor].
    + left. split; [now left|reflexivity].
    + apply number_0.
    + apply (llvm_plain h Sane).
  - apply follows_sh_other; [reflexivity|]. repeat constructor; now apply plain_lit.
Qed.
Lemma follows_gh_test t m deps : t <> $"build" -> t <> $"docgen" -> In m modules -> incl (flat_map words deps) modules ->
  follows (gh_actions h (t :: m :: deps)) scripts (gh_test_plan root (h_tmp h) (h_cpus h) (is_darwin h) (flat_map words deps) m) scripts.
Proof.
  intros N1 N2 I D. unfold gh_actions. cbv zeta iota.
  destruct (str_eqb t $"build") eqn:E1; [apply str_eqb_eq in E1; contradiction|]. destruct (str_eqb t $"docgen") eqn:E2; [apply str_eqb_eq in E2; contradiction|].
  unfold gh_test_plan. apply (follows_seq h Codes _ _ scripts _ scripts); [apply sh_clang|].
  apply (follows_seq h Codes _ _ scripts _ scripts); [apply sh_gtest_get|]. apply (follows_seq h Codes _ _ scripts _ scripts); [apply sh_gtest_make|].
  apply (follows_seq h Codes _ _ scripts _ scripts); [|apply (sh_test false m I)].
  apply follows_each; [exact Codes|]. intros d J. apply (sh_test true d (D d J)).
Qed.
End Wrap.

(** make: all is removed, fetched and built again, for a release. *)
Theorem c145_make : forall h args is j mac unix, sane h -> system h mac unix ->
  reads ci_flags [$"j"] args is -> free is = [] -> number (chosen $"j" $"0" is) j -> has $"reset" is = false ->
  outcome h (make_plan (h_root h) (h_tmp h) (h_cpus h) (h_python h) mac unix (has $"archive" is) j) [] (make_script h args (start h)).
Proof.
  intros h args is j mac unix Sn Y R F N NR. destruct (system_is h mac unix Y) as (-> & ->).
  apply (follows_outcome h _ _ _ _ (start h) (sane_codes h Sn) (follows_make_script h Sn args is j R F N NR)). reflexivity.
Qed.
(** Arguments that ci does not know end it before anything is removed. *)
Theorem c145_make_refused : forall h args, good_root (h_root h) -> (~ exists is j, reads ci_flags [$"j"] args is /\ free is = [] /\ number (chosen $"j" $"0" is) j) ->
  exit_status (fst (make_script h args (start h))) = 2%Z /\ p_past (snd (make_script h args (start h))) = [].
Proof.
  intros h args Root No.
  assert (E : ci_script h ($"-reset" :: args) = usage).
  { unfold ci_script. fold ci_flags. destruct (parse ci_flags [$"j"] ($"-reset" :: args)) as [p|] eqn:E; [|reflexivity].
    change (option_map (fun p => {| a_flags := $"reset" :: a_flags p; a_values := a_values p; a_words := a_words p |}) (parse ci_flags [$"j"] args) = Some p) in E.
    destruct (parse ci_flags [$"j"] args) as [q|] eqn:Q; [|discriminate]. cbn [option_map] in E. injection E as <-. cbn [a_words].
    destruct (parse_some ci_flags [$"j"] args q Q) as (is & R & ->). cbn [collect a_words]. destruct (free is) as [|w l] eqn:Fr; [|reflexivity].
    match goal with |- context [int_value $"j" ?x] => change (int_value $"j" x) with (int_value $"j" (collect is)) end.
    destruct (int_value $"j" (collect is)) as [j|] eqn:J; [|reflexivity]. destruct No. exists is, j. split; [exact R|]. split; [exact Fr|now apply int_collect]. }
  assert (Q : make_script h args (start h) = (Exits 2, start h)).
  { unfold make_script. unfold seq at 1. unfold sh_run at 1. cbn [start p_cwd]. rewrite (scripts_at h Root), str_eqb_refl.
    change (python_scripts h $"ci") with (Some (ci_script h)). cbv iota. rewrite E. reflexivity. }
  rewrite Q. split; reflexivity.
Qed.
(** docGen: the parts that write the documentation are built so, bundled, and run. *)
Theorem c145_docgen : forall h, sane h -> outcome h (docs_plan (h_root h) (h_cpus h)) [] (docgen_script h (start h)).
Proof. intros h Sn. apply (follows_outcome h _ _ _ _ (start h) (sane_codes h Sn) (follows_docgen h Sn)). reflexivity. Qed.
(** makeWithSystemLLVM: a release is built with the LLVM at the given path, when something is there. *)
Theorem c145_system_llvm : forall h p, sane h -> plain p ->
  let code := h_run h [] (p_cwd (start h)) ($"test ! -s " ++ p) in
  let asked := [Ran (p_cwd (start h)) ($"test ! -s " ++ p) code] in
  let r := system_llvm_script h [p] (start h) in
  if (code =? 0)%Z then exit_status (fst r) = 2%Z /\ p_past (snd r) = asked else outcome h (system_llvm_plan (h_root h) (h_cpus h) p) asked r.
Proof.
  intros h p Sn P code asked r. unfold r, asked, system_llvm_script, subprocess_call. cbn [start p_past p_cwd]. cbn [start p_cwd] in code. fold code.
  destruct (code =? 0)%Z eqn:E; [split; reflexivity|].
  match goal with |- outcome h _ _ (_ ?s) => change [Ran (under (h_root h) $"oclint-scripts") ($"test ! -s " ++ p) code] with (p_past s) end.
  set (o := $"-llvm-root=" ++ p). assert (Po : plain o) by (apply plain_app; [now apply plain_lit|exact (proj2 P)]).
  assert (W : words o = [o]) by (apply words_splits, sp_last, Po). rewrite W. cbn [app].
  apply (follows_outcome h _ (under (h_root h) $"oclint-scripts") _ (under (h_root h) $"oclint-scripts") _ (sane_codes h Sn)); [|reflexivity].
  unfold system_llvm_plan. apply (follows_seq h (sane_codes h Sn) _ _ (under (h_root h) $"oclint-scripts") _ (under (h_root h) $"oclint-scripts")).
  - apply (follows_sh h Sn _ _ (build_script h)); [reflexivity|].
    apply (follows_build_script h Sn [o; $"-release"; $"-clean"] [Opt $"llvm-root" p; Flag $"release"; Flag $"clean"] modules 0).
    + change o with ($"-llvm-root" ++ $"=" ++ p). apply (r_equals _ _ $"llvm-root"); [right; now left|now left|].
      apply (r_flag _ _ $"release"); [right; now left|now left|]. apply (r_flag _ _ $"clean"); [do 2 right; now left|now left|constructor].
    + left. split; [now left|reflexivity].
    + apply number_0.
    + exact P.
  - apply (follows_sh_other h Sn); [reflexivity|]. constructor; [now apply plain_lit|]. constructor; [exact Po|]. constructor; [now apply plain_lit|constructor].
Qed.
Theorem c145_system_llvm_usage : forall h args, (forall p, args <> [p]) -> system_llvm_script h args (start h) = (Exits 1, start h).
Proof. intros h [|p [|q l]] N; [reflexivity|now destruct (N p)|reflexivity]. Qed.
(** The jobs that use an LLVM of the system build all modules with it and pack them. *)
Theorem c145_system_llvm_jobs : forall h p, sane h -> In p system_llvms ->
  outcome h (system_job_plan (h_root h) (h_cpus h) p) [] (system_llvm_job h p (start h)).
Proof.
  intros h p Sn I. assert (P : plain p) by (destruct I as [<-|[<-|[]]]; now apply plain_lit).
  set (o := $"-llvm-root=" ++ p). assert (Po : plain o) by (apply plain_app; [now apply plain_lit|exact (proj2 P)]).
  apply (follows_outcome h _ (under (h_root h) $"oclint-scripts") _ (under (h_root h) $"oclint-scripts") (start h) (sane_codes h Sn)); [|reflexivity].
  unfold system_job_plan, system_llvm_job. fold o. apply (follows_seq h (sane_codes h Sn) _ _ (under (h_root h) $"oclint-scripts") _ (under (h_root h) $"oclint-scripts")).
  - apply (follows_sh h Sn _ _ (build_script h)); [reflexivity|].
    apply (follows_build_script h Sn [$"-no-ninja"; o] [Flag $"no-ninja"; Opt $"llvm-root" p] modules 0).
    + apply (r_flag _ _ $"no-ninja"); [cbn; tauto|now left|].
      change o with ($"-llvm-root" ++ $"=" ++ p). apply (r_equals _ _ $"llvm-root"); [right; now left|now left|constructor].
    + left. split; [now left|reflexivity].
    + apply number_0.
    + exact P.
  - apply (follows_sh_other h Sn); [reflexivity|]. constructor; [now apply plain_lit|]. constructor; [now apply plain_lit|]. constructor; [exact Po|constructor].
Qed.
(** gh-actions, for the three kinds of jobs *)
Theorem c145_gh_build : forall h rest, sane h -> outcome h (gh_build_plan (h_root h) (h_cpus h)) [] (gh_actions h ($"build" :: rest) (start h)).
Proof. intros h rest Sn. apply (follows_outcome h _ _ _ _ (start h) (sane_codes h Sn) (follows_gh_build h Sn rest)). reflexivity. Qed.
Theorem c145_gh_docgen : forall h rest, sane h -> outcome h (gh_docs_plan (h_root h) (h_cpus h)) [] (gh_actions h ($"docgen" :: rest) (start h)).
Proof.
  intros h rest Sn. change (gh_actions h ($"docgen" :: rest)) with (sh_run h (all_scripts h) $"clang" [];; sh_run h (all_scripts h) $"docGen" []). unfold gh_docs_plan.
  pose proof (follows_end h _ _ _ _ (start h) (sane_codes h Sn) (sh_clang h Sn) eq_refl) as En.
  apply (outcome_seq h _ _ _ _ (start h)).
  - apply (follows_outcome h _ _ _ _ (start h) (sane_codes h Sn) (sh_clang h Sn)). reflexivity.
  - destruct En as [(E & _)|E]; auto.
  - intros D. destruct En as [(_ & C)|E]; [|rewrite D in E; now destruct E].
    destruct (sh_run h (all_scripts h) $"clang" [] (start h)) as (e & s). cbn [fst snd] in *.
    rewrite (sh_run_child h Sn (all_scripts h) $"docGen" (fun _ => docgen_script h) [] s C eq_refl).
    apply (outcome_same h _ _ (docgen_script h s)).
    + unfold run_child. destruct (docgen_script h s) as (e' & s'). cbn [fst]. destruct (exit_status e' =? 0)%Z eqn:Z0; cbn [fst exit_status].
      * apply Z.eqb_eq in Z0. now rewrite Z0.
      * destruct e' as [|x]; cbn [exit_status]; [reflexivity|]. now rewrite Z.mod_mod by lia.
    + unfold run_child. destruct (docgen_script h s) as (e' & s'). destruct (exit_status e' =? 0)%Z; reflexivity.
    + exact (follows_outcome h _ _ _ _ s (sane_codes h Sn) (follows_docgen h Sn) C).
Qed.
Theorem c145_gh_test : forall h t m deps mac, sane h -> (mac = true <-> runs_on $"darwin" (h_kernel h)) ->
  t <> $"build" -> t <> $"docgen" -> In m modules -> incl deps modules ->
  outcome h (gh_test_plan (h_root h) (h_tmp h) (h_cpus h) mac deps m) [] (gh_actions h (t :: m :: deps) (start h)).
Proof.
  intros h t m deps mac Sn Y N1 N2 I D. assert (E : mac = is_darwin h) by (apply eq_true_iff_eq; unfold is_darwin; now rewrite prefix_runs). rewrite E.
  assert (W : flat_map words deps = deps).
  { clear - D. induction deps as [|d deps IH]; [reflexivity|]. cbn [flat_map]. rewrite IH; [|intros x J; apply D; now right].
    specialize (D d (or_introl eq_refl)). apply in_modules in D as [->|[->|[->|[->| ->]]]]; reflexivity. }
  pose proof (follows_gh_test h Sn t m deps N1 N2 I) as K. rewrite W in K. apply (follows_outcome h _ _ _ _ (start h) (sane_codes h Sn) (K D)). reflexivity.
Qed.
(** The jobs of the workflow test every module once, each after what it needs, and nothing else,
    has been built. *)
Theorem c145_matrix : map fst tests_matrix = modules
  /\ (forall m before d after, In m modules -> needs m = before ++ d :: after -> In d modules /\ incl (needs d) before)
  /\ forall h job mac, sane h -> (mac = true <-> runs_on $"darwin" (h_kernel h)) -> In job tests_matrix ->
     outcome h (gh_test_plan (h_root h) (h_tmp h) (h_cpus h) mac (needs (fst job)) (fst job)) [] (gh_actions h (tests_args job) (start h)).
Proof.
  split; [reflexivity|]. split.
  - intros m before d after I E.
    assert (K : d = $"core" \/ d = $"metrics").
    { assert (J : In d (needs m)) by (rewrite E; apply in_app_iff; right; now left).
      apply in_modules in I as [->|[->|[->|[->| ->]]]]; vm_compute in J; try contradiction; (destruct J as [<-|J]; [now left|]); try contradiction; (destruct J as [<-|J]; [now right|]); contradiction. }
    destruct K as [->| ->]; (split; [cbn [modules In]; tauto|intros x []]).
  - intros h job mac Sn Y J. assert (A : tests_args job = $"test" :: fst job :: needs (fst job)).
    { repeat (destruct J as [<-|J]; [reflexivity|]). contradiction. }
    rewrite A. apply c145_gh_test; [exact Sn|exact Y|discriminate|discriminate| |].
    + change modules with (map fst tests_matrix). now apply in_map.
    + repeat (destruct J as [<-|J]; [intros x I; vm_compute in I; repeat (destruct I as [<-|I]; [cbn [modules In]; tauto|]); contradiction|]). contradiction.
Qed.
(** The job of a release: make, and then an archive of it. *)
Theorem c145_release : forall h mac unix, sane h -> system h mac unix ->
  outcome h (make_plan (h_root h) (h_tmp h) (h_cpus h) (h_python h) mac unix false 0 ++ [Run (under (h_root h) $"oclint-scripts") [$"./bundle"; $"-archive"; $"-release"]]) []
    (release_job h (start h)).
Proof.
  intros h mac unix Sn Y. destruct (system_is h mac unix Y) as (-> & ->).
  assert (F : follows h (release_job h) (under (h_root h) $"oclint-scripts")
    (make_plan (h_root h) (h_tmp h) (h_cpus h) (h_python h) (is_darwin h) (is_unix h) false 0 ++ [Run (under (h_root h) $"oclint-scripts") [$"./bundle"; $"-archive"; $"-release"]])
    (under (h_root h) $"oclint-scripts")).
  { unfold release_job. apply (follows_seq h (sane_codes h Sn) _ _ _ _ (under (h_root h) $"oclint-scripts")).
    - apply (follows_sh h Sn _ _ (make_script h)); [reflexivity|].
      pose proof (follows_make_script h Sn [] [] 0 (r_end _ _) eq_refl number_0 eq_refl) as K. exact K.
    - apply (follows_words h Sn); [reflexivity|discriminate|repeat constructor; now apply plain_lit]. }
  apply (follows_outcome h _ _ _ _ (start h) (sane_codes h Sn) F). reflexivity.
Qed.
(** No module of the documentation is built before those it uses. *)
Theorem c145_docs_needed_first : forall before m after, [$"core"; $"metrics"; $"rules"; $"driver"] = before ++ m :: after -> incl (needs m) before.
Proof.
  intros before m after E. destruct before as [|b1 [|b2 [|b3 [|b4 b]]]]; cbn [app] in E.
  - pose proof (f_equal (fun l => nth 0 l []) E) as E0. cbn [nth] in E0. subst m. intros x [].
  - pose proof (f_equal (fun l => nth 1 l []) E) as E0. cbn [nth] in E0. subst m. intros x [].
  - pose proof (f_equal (fun l => nth 0 l []) E) as E0. pose proof (f_equal (fun l => nth 1 l []) E) as E1. pose proof (f_equal (fun l => nth 2 l []) E) as E2.
    cbn [nth] in E0, E1, E2. subst m b1 b2. intros x I. exact I.
  - pose proof (f_equal (fun l => nth 0 l []) E) as E0. pose proof (f_equal (fun l => nth 3 l []) E) as E3.
    cbn [nth] in E0, E3. subst m b1. intros x [<-|[]]. now left.
  - apply (f_equal (@length _)) in E. cbn [length] in E. rewrite app_length in E. cbn [length] in E. lia.
Qed.
(** test rules -llvm-root P builds the tests with the LLVM at P, and runs them with the headers of
    another one: those in the build directory. *)
Theorem c145_headers_refuted : forall h p, sane h -> plain p -> undashed p ->
  let r := test_script h [$"rules"; $"-llvm-root"; p] (start h) in
  exit_status (fst r) = 0%Z ->
  In (Did (CopyTree (under (h_root h) $"build/llvm-install/lib/clang/21/include") (under (h_tmp h) $"oclint-rules-test/clang")) true) (p_past (snd r))
  /\ forall e a b ok, In e (p_past (snd r)) -> e = Did (CopyTree a b) ok -> a = under (h_root h) $"build/llvm-install/lib/clang/21/include".
Proof.
  intros h p Sn P U r Z0.
  assert (O : outcome h (test_plan (h_root h) (h_tmp h) (h_cpus h) [$"rules"] p false true true 0) [] r).
  { apply (c145_test h [$"rules"; $"-llvm-root"; p] [Word $"rules"; Opt $"llvm-root" p] [$"rules"] 0 Sn).
    - apply r_word; [now apply option_name_none|]. apply (r_next _ _ $"llvm-root"); [right; now left|now left|now left|constructor].
    - right. exists $"rules". split; [reflexivity|]. split; [cbn [modules In]; tauto|reflexivity].
    - apply number_0.
    - exact P. }
  destruct O as (_ & evs & Pa & [(_ & F & _)|(X & _)]); [|contradiction]. rewrite Pa. cbn [app].
  unfold test_plan, test_one, headers in F. cbn [if_ flat_map app] in F. change (str_eqb $"rules" $"rules") with true in F. cbn [if_ app] in F.
  assert (G : forall e, In e evs -> counts e = true -> In e (steps evs)) by (intros e I C; apply filter_In; auto).
  assert (G' : forall e, In e (steps evs) -> In e evs) by (intros e I; apply filter_In in I; apply I).
  remember (steps evs) as st eqn:Q. clear Q.
  repeat match type of F with
         | Forall2 _ _ (_ :: _) => let D := fresh "D" in let F' := fresh "F" in inversion F as [|? ? ? ? D F']; clear F; subst; rename F' into F
         | Forall2 _ _ [] => inversion F; subst; clear F
         end.
  repeat match goal with D : does _ _ |- _ => cbn [does] in D end.
  split.
  - apply G'. repeat match goal with D : _ = Did (CopyTree _ _) _ |- _ => rewrite <- D end.
    cbn [In]. repeat (try (left; reflexivity); right).
  - intros e a b ok I ->. specialize (G _ I eq_refl). cbn [In] in G.
    repeat match goal with D : exists _, _ |- _ => destruct D as (? & D) | D : _ /\ _ |- _ => destruct D as (D & _) end.
    repeat (destruct G as [G|G]; [try congruence; try (rewrite G in *; congruence)|]). contradiction.
Qed.

(** ** Cases *)
Example c145_build_case :
  let argv := [$"-clean"; $"rules"; $"--llvm-root"; $"/opt/llvm"; $"-j4"; $"-llvm-root=/opt/llvm-21"] in
  let is := [Flag $"clean"; Word $"rules"; Opt $"llvm-root" $"/opt/llvm"; Opt $"j" $"4"; Opt $"llvm-root" $"/opt/llvm-21"] in
  sane usual_host /\ reads build_flags with_llvm argv is /\ selects is [$"rules"] /\ number (chosen $"j" $"0" is) 4
  /\ plain (chosen $"llvm-root" (under (h_root usual_host) $"build/llvm-install") is)
  /\ fst (build_script usual_host argv (start usual_host)) = Done
  /\ p_past (snd (build_script usual_host argv (start usual_host))) =
     [Did (RmF $"/work/oclint/build/oclint-rules") true; Did (MkdirP $"/work/oclint/build/oclint-rules") true; Did (Chdir $"/work/oclint/build/oclint-rules") true;
      Ran $"/work/oclint/build/oclint-rules"
        $"cmake -G Ninja -D LLVM_ROOT=/opt/llvm-21 -D OCLINT_SOURCE_DIR=/work/oclint/oclint-core -D OCLINT_BUILD_DIR=/work/oclint/build/oclint-core -D OCLINT_METRICS_SOURCE_DIR=/work/oclint/oclint-metrics -D OCLINT_METRICS_BUILD_DIR=/work/oclint/build/oclint-metrics /work/oclint/oclint-rules" 0;
      Ran $"/work/oclint/build/oclint-rules" $"ninja -j 4" 0; Did (Chdir $"/work/oclint/oclint-scripts") true].
Proof.
  cbv zeta. split; [exact usual_sane|]. split.
  { apply (r_flag _ _ $"clean"); [do 2 right; now left|now left|]. apply r_word; [now apply option_name_none|].
    apply (r_next _ _ $"llvm-root"); [right; now left|right; split; [reflexivity|discriminate]|left; now apply option_name_none|].
    apply (r_joined _ _ $"4"); [now left|discriminate|intros [X|[]]; discriminate X|].
    apply (r_equals _ _ $"llvm-root" $"-llvm-root" $"/opt/llvm-21"); [right; now left|now left|constructor]. }
  split; [right; exists $"rules"; split; [reflexivity|split; [cbn [modules In]; tauto|reflexivity]]|].
  split; [exists $"4"; split; [split; [discriminate|intros c [<-|[]]; reflexivity]|left; split; reflexivity]|].
  split; [now apply plain_lit|]. split; vm_compute; reflexivity.
Qed.
(** An option as the value of another one, an unknown option, two modules, and no number: refused. *)
Example c145_refused_case :
  map (fun argv => exit_status (fst (build_script usual_host argv (start usual_host))))
    [[$"-llvm-root"; $"-clean"]; [$"-fast"]; [$"core"; $"rules"]; [$"-j"; $"many"]; [$"--j"; $"4"]; [$"-clean=1"]] = [2; 2; 2; 2; 2; 2]%Z
  /\ (~ exists is, reads build_flags with_llvm [$"-llvm-root"; $"-clean"] is).
Proof.
  split; [vm_compute; reflexivity|]. rewrite <- (parse_none build_flags with_llvm eq_refl). reflexivity.
Qed.
Definition has_llvm_host := {| h_root := $"/work/oclint"; h_python := $"/usr/bin/python3"; h_cpus := 8; h_kernel := $"Linux"; h_arch := $"x86_64"; h_tmp := $"/tmp";
  h_run := fun _ _ cmd => if prefixb $"test ! -s" cmd then 1%Z else 0%Z; h_does := h_does usual_host |}.
Example c145_wrapper_cases :
  exit_status (fst (system_llvm_script has_llvm_host [$"/opt/llvm"] (start has_llvm_host))) = 0%Z
  /\ length (p_past (snd (system_llvm_script has_llvm_host [$"/opt/llvm"] (start has_llvm_host)))) = 32
  /\ exit_status (fst (system_llvm_script usual_host [$"/opt/llvm"] (start usual_host))) = 2%Z
  /\ exit_status (fst (docgen_script usual_host (start usual_host))) = 0%Z
  /\ map (fun job => exit_status (fst (gh_actions usual_host (tests_args job) (start usual_host)))) tests_matrix = [0; 0; 0; 0; 0]%Z
  /\ exit_status (fst (gh_actions red_host [$"test"; $"rules"; $"core"; $"metrics"] (start red_host))) = 8%Z
  /\ exit_status (fst (make_script usual_host [$"-j"; $"2"] (start usual_host))) = 0%Z
  /\ exit_status (fst (release_job usual_host (start usual_host))) = 0%Z
  /\ map (fun p => exit_status (fst (system_llvm_job usual_host p (start usual_host)))) system_llvms = [0; 0]%Z.
Proof. vm_compute. repeat split. Qed.
Example c145_system_case : sane usual_host /\ system usual_host false true /\ reads ci_flags [$"j"] [$"-j"; $"2"] [Opt $"j" $"2"] /\ number $"2" 2.
Proof.
  split; [exact usual_sane|]. split; [exact usual_system|]. split; [apply (r_next _ _ $"j"); [now left|now left|left; now apply option_name_none|constructor]|].
  exists $"2". split; [split; [discriminate|intros c [<-|[]]; reflexivity]|left; split; reflexivity].
Qed.
Print Assumptions c145_build.
Print Assumptions c145_test.
Print Assumptions c145_dogfooding.
Print Assumptions c145_google_test.
Print Assumptions c145_refused.
Print Assumptions c145_one_reading.
Print Assumptions c145_make.
Print Assumptions c145_make_refused.
Print Assumptions c145_docgen.
Print Assumptions c145_system_llvm.
Print Assumptions c145_system_llvm_usage.
Print Assumptions c145_system_llvm_jobs.
Print Assumptions c145_gh_build.
Print Assumptions c145_gh_docgen.
Print Assumptions c145_gh_test.
Print Assumptions c145_matrix.
Print Assumptions c145_release.
Print Assumptions c145_docs_needed_first.
Print Assumptions c145_headers_refuted.
