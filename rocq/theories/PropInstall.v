(** * C136: oclint finds its own rules, reporters and settings *)
From Verif Require Import Base BaseFacts ModelResults ModelConfig ModelFilter ModelOptions ModelMain ModelInstall
  SpecResults SpecFilter SpecOptions SpecMain SpecInstall ProofResults ProofMain.
Local Arguments lit : simpl never.

(** ** Names *)
Lemma parts_cons p : exists l ls, parts p = l :: ls.
Proof. destruct p as [|c p]; cbn [parts]; [eauto|]. destruct (ascii_eqb c _); [eauto|]. destruct (parts p); eauto. Qed.
Lemma parts_slash a b : parts (a ++ "/"%char :: b) = parts a ++ parts b.
Proof.
  induction a as [|c a IH]; [reflexivity|]. cbn [app parts]. rewrite IH. destruct (ascii_eqb c _); [reflexivity|].
  destruct (parts_cons a) as (l & ls & ->). reflexivity.
Qed.
Lemma names_slash a b : names (a ++ "/"%char :: b) = names a ++ names b.
Proof. unfold names. now rewrite parts_slash, filter_app. Qed.
Lemma names_trailing a : names (a ++ $"/") = names a.
Proof. change $"/" with ("/"%char :: []). rewrite names_slash. apply app_nil_r. Qed.
Lemma names_plain n : is_name n = true -> ~ In "/"%char n -> names n = [n].
Proof.
  intros N I. assert (E : parts n = [n]).
  { clear N. induction n as [|c n IH]; [reflexivity|]. cbn [parts]. rewrite IH by (intros H; apply I; now right).
    replace (ascii_eqb c "/") with false; [reflexivity|]. symmetry. apply ascii_eqb_neq. intros ->. apply I. now left. }
  unfold names. rewrite E. cbn [filter]. now rewrite N.
Qed.
Lemma strip_leading_spec p : exists n, p = repeat "/"%char n ++ strip_leading p /\ starts_slash (strip_leading p) = false.
Proof.
  induction p as [|c p (n & E & H)]; [exists 0; auto|]. cbn [strip_leading]. unfold is_slash. destruct (ascii_eqb c _) eqn:Ec.
  - apply ascii_eqb_eq in Ec. subst c. exists (S n). cbn [repeat app]. rewrite <- E. auto.
  - exists 0. split; [reflexivity|]. cbn [starts_slash]. exact Ec.
Qed.
Lemma rev_repeat {A} (x : A) n : rev (repeat x n) = repeat x n.
Proof.
  induction n as [|n IH]; [reflexivity|]. cbn [repeat rev]. rewrite IH. clear. induction n as [|n IH]; [reflexivity|]. cbn. now rewrite IH.
Qed.
Lemma strip_trailing_spec p : exists n, p = strip_trailing p ++ repeat "/"%char n /\ ends_slash (strip_trailing p) = false.
Proof.
  unfold strip_trailing, ends_slash. destruct (strip_leading_spec (rev p)) as (n & E & H). exists n.
  rewrite rev_involutive. split; [|exact H]. rewrite <- (rev_repeat _ n), <- rev_app_distr, <- E. now rewrite rev_involutive.
Qed.
Lemma names_slashes a n : names (a ++ repeat "/"%char n) = names a.
Proof.
  revert a. induction n as [|n IH]; intros a; [now rewrite app_nil_r|]. cbn [repeat]. rewrite names_slash. change (repeat "/"%char n) with ([] ++ repeat "/"%char n).
  rewrite IH. apply app_nil_r.
Qed.
Lemma names_strip p : names (strip_trailing p) = names p.
Proof. destruct (strip_trailing_spec p) as (n & E & _). rewrite E at 2. now rewrite names_slashes. Qed.
Lemma starts_absolute p : starts_slash p = absolute p.
Proof. destruct p; reflexivity. Qed.
Lemma ends_slash_snoc p c : ends_slash (p ++ [c]) = is_slash c.
Proof. unfold ends_slash. now rewrite rev_app_distr. Qed.
Lemma is_slash_in (n : str) : ~ In "/"%char n -> existsb is_slash n = false.
Proof.
  intros H. destruct (existsb is_slash n) eqn:E; [|reflexivity]. apply existsb_exists in E as (c & I & E). apply ascii_eqb_eq in E. subst. contradiction.
Qed.

(** The last name of a path, split off. *)
Lemma file_split X n : n <> [] -> ~ In "/"%char n ->
  ends_slash (X ++ "/"%char :: n) = false /\ filename (X ++ "/"%char :: n) = n /\ filename_pos (X ++ "/"%char :: n) = S (length X).
Proof.
  intros N I. assert (E : ends_slash (X ++ "/"%char :: n) = false).
  { destruct (exists_last N) as (m & c & ->). replace (X ++ "/"%char :: m ++ [c]) with ((X ++ "/"%char :: m) ++ [c]) by now rewrite <- app_assoc.
    rewrite ends_slash_snoc. apply ascii_eqb_neq. intros ->. apply I, in_app_iff. right. now left. }
  assert (P : filename_pos (X ++ "/"%char :: n) = S (length X)) by (unfold filename_pos; now rewrite E, rfind_char_intro).
  split; [exact E|]. split; [|exact P]. unfold filename. rewrite E, P.
  replace (X ++ "/"%char :: n) with ((X ++ ["/"%char]) ++ n) by now rewrite <- app_assoc.
  replace (S (length X)) with (length (X ++ ["/"%char])) by (rewrite app_length; cbn; lia). apply skipn_app_exact.
Qed.
Lemma filename_plain n : ~ In "/"%char n -> filename n = n.
Proof.
  intros I. assert (E : ends_slash n = false).
  { destruct n as [|c0 n0]; [reflexivity|]. destruct (@exists_last _ (c0 :: n0)) as (m & c & E); [discriminate|]. rewrite E in *.
    rewrite ends_slash_snoc. apply ascii_eqb_neq. intros ->. apply I, in_app_iff. right. now left. }
  unfold filename, filename_pos. rewrite E. rewrite (proj2 (rfind_char_none _ _) I). reflexivity.
Qed.
Lemma parent_spec X n : n <> [] -> ~ In "/"%char n ->
  parent_path (X ++ "/"%char :: n) <> [] /\ absolute (parent_path (X ++ "/"%char :: n)) = absolute (X ++ "/"%char :: n)
  /\ names (parent_path (X ++ "/"%char :: n)) = names X.
Proof.
  intros N I. destruct (file_split X n N I) as (E & _ & P). unfold parent_path. rewrite P, E, starts_absolute.
  assert (D : firstn (S (length X)) (X ++ "/"%char :: n) = X ++ ["/"%char]).
  { replace (X ++ "/"%char :: n) with ((X ++ ["/"%char]) ++ n) by now rewrite <- app_assoc.
    replace (S (length X)) with (length (X ++ ["/"%char])) by (rewrite app_length; cbn; lia). apply firstn_app_exact. }
  rewrite D. pose proof (names_strip (X ++ ["/"%char])) as Ns. rewrite (names_slashes X 1 : names (X ++ ["/"%char]) = _) in Ns.
  destruct (strip_trailing_spec (X ++ ["/"%char])) as (k & S & En).
  set (d := strip_trailing (X ++ ["/"%char])) in *. clearbody d. cbn [negb].
  destruct d as [|c d].
  - cbn [is_nil andb app] in *. destruct X as [|x X].
    + cbn [app absolute]. change (ascii_eqb "/" "/") with true. cbn [andb]. split; [discriminate|]. split; [reflexivity|exact Ns].
    + assert (x = "/"%char) as -> by (destruct k; cbn in S; congruence). cbn [app absolute]. change (ascii_eqb "/" "/") with true. cbn [andb].
      split; [discriminate|]. split; [reflexivity|exact Ns].
  - cbn [is_nil andb]. split; [discriminate|]. split; [|exact Ns]. destruct X as [|x X].
    + cbn [app] in S. injection S as <- S. cbn [app absolute]. reflexivity.
    + cbn [app] in S. injection S as <- S. reflexivity.
Qed.

(** ** Walks *)
Lemma leads_on fs d a m b t : leads fs d a m -> leads fs d (a ++ b) t -> leads fs m b t.
Proof.
  intros H. revert b t. induction H; intros b t' H'; cbn [app] in *.
  - exact H'.
  - inversion H'; subst; try contradiction; auto.
  - inversion H'; subst; try contradiction; try congruence; auto.
  - inversion H'; subst; try contradiction; try congruence. constructor.
  - inversion H'; subst; try contradiction; try congruence. apply IHleads. rewrite <- app_assoc.
    match goal with E : fs _ = Some (Symlink ?u), E' : fs _ = Some (Symlink ?v) |- _ => assert (u = v) as -> by congruence end. assumption.
Qed.
Lemma leads_app fs d a m b t : leads fs d a m -> is_directory fs m -> leads fs m b t -> leads fs d (a ++ b) t.
Proof.
  intros H. revert b t. induction H; intros b t' D H'; cbn [app] in *.
  - exact H'.
  - apply l_up. auto.
  - apply l_down; auto.
  - destruct D as [D|D]; [destruct d; discriminate D|congruence].
  - eapply l_link; [assumption|eassumption|]. rewrite app_assoc. auto.
Qed.
Lemma leads_det fs d a m m' : leads fs d a m -> leads fs d a m' -> m = m'.
Proof. intros H H'. rewrite <- (app_nil_r a) in H'. eapply leads_on in H'; [|exact H]. now inversion H'. Qed.

(** Two paths with the same names from the same place. *)
Lemma opens_same fs cwd p q t : p <> [] -> q <> [] -> absolute p = absolute q -> names p = names q ->
  (opens fs cwd p t <-> opens fs cwd q t).
Proof. unfold opens. intros P Q -> ->. tauto. Qed.
Lemma runnable_same fs cwd p q : p <> [] -> q <> [] -> absolute p = absolute q -> names p = names q ->
  (runnable fs cwd p <-> runnable fs cwd q).
Proof. intros. unfold runnable. setoid_rewrite (opens_same fs cwd p q); tauto. Qed.

Lemma absolute_app p q : p <> [] -> absolute (p ++ q) = absolute p.
Proof. destruct p; [contradiction|reflexivity]. Qed.
Lemma path_append_spec d n : d <> [] -> absolute n = false -> n <> [] ->
  exists X, path_append d n = X ++ "/"%char :: n /\ names X = names d /\ absolute (X ++ "/"%char :: n) = absolute d.
Proof.
  intros D A N. unfold path_append. destruct (is_nil d) eqn:E; [destruct d; [contradiction|discriminate E]|].
  rewrite starts_absolute, A. destruct (ends_slash d) eqn:En.
  - destruct (exists_last D) as (X & c & ->). rewrite ends_slash_snoc in En. apply ascii_eqb_eq in En. subst c. exists X.
    assert (strip_leading n = n) as ->. { destruct n as [|c n]; [reflexivity|]. cbn in *. unfold is_slash. now rewrite A. }
    rewrite <- app_assoc. cbn [app]. split; [reflexivity|]. split; [symmetry; exact (names_slashes X 1)|]. destruct X; reflexivity.
  - exists d. split; [reflexivity|]. split; [reflexivity|]. now apply absolute_app.
Qed.
Lemma path_append_split d X n : d <> [] -> n <> [] -> ~ In "/"%char n -> absolute (X ++ "/"%char :: n) = false ->
  exists X', path_append d (X ++ "/"%char :: n) = X' ++ "/"%char :: n /\ names X' = names d ++ names X
    /\ absolute (X' ++ "/"%char :: n) = absolute d.
Proof.
  intros D N I A. destruct (path_append_spec d (X ++ "/"%char :: n) D A) as (Y & E & Nm & Ab); [destruct X; discriminate|].
  exists (Y ++ "/"%char :: X). rewrite E. split; [now rewrite <- app_assoc|]. rewrite names_slash, Nm. split; [reflexivity|].
  rewrite <- Ab. now rewrite <- app_assoc.
Qed.
Lemma no_slash_relative (n : str) : ~ In "/"%char n -> absolute n = false.
Proof. destruct n as [|c n]; [reflexivity|]. intros I. cbn. apply ascii_eqb_neq. intros ->. apply I. now left. Qed.
Lemma split_unique (X Y n m : str) : ~ In "/"%char n -> ~ In "/"%char m -> X ++ "/"%char :: n = Y ++ "/"%char :: m -> X = Y /\ n = m.
Proof.
  intros N M E. assert (H : rfind_char "/"%char (X ++ "/"%char :: n) = rfind_char "/"%char (Y ++ "/"%char :: m)) by now rewrite E.
  rewrite !rfind_char_intro in H by assumption. injection H as H. clear N M. revert Y H E. induction X as [|x X IH]; intros [|y Y] H E; try discriminate H; cbn [app] in E.
  - injection E as ->. auto.
  - injection E as -> E. injection H as H. destruct (IH Y H E) as (-> & ->). auto.
Qed.

(** ** C136 *)
(** The current directory is a directory, and what the process knows of it is a path to it. *)
Definition current (fs : filesystem) (cwd : list str) (pwd : option str) : Prop :=
  is_directory fs cwd /\ match pwd with Some p => absolute p = true /\ opens fs cwd p cwd | None => True end.

Lemma bin_leads fs cwd pwd X n B : current fs cwd pwd -> n <> [] -> ~ In "/"%char n ->
  leads fs (if absolute (X ++ "/"%char :: n) then [] else cwd) (names X) B ->
  let bin := parent_path (make_absolute pwd (X ++ "/"%char :: n)) in opens fs cwd bin B.
Proof.
  intros (Dc & Cw) N I L bin. unfold bin, make_absolute. rewrite starts_absolute.
  destruct (parent_spec X n N I) as (P1 & P2 & P3).
  destruct (absolute (X ++ "/"%char :: n)) eqn:A.
  - unfold opens. rewrite P2, P3. auto.
  - destruct pwd as [w|].
    + destruct Cw as (Aw & Wn & Lw). rewrite Aw in Lw.
      destruct (path_append_split w X n Wn N I A) as (Y & E & Nm & Ab). rewrite E.
      destruct (parent_spec Y n N I) as (Q1 & Q2 & Q3). unfold opens. rewrite Q2, Q3, Ab, Aw, Nm. split; [exact Q1|].
      eapply leads_app; eassumption.
    + unfold opens. rewrite P2, P3. auto.
Qed.
Lemma lies_in_split f dir : lies_in f dir -> dir <> [] /\ exists X n : str, f = X ++ "/"%char :: n /\ n <> [] /\ ~ In "/"%char n
  /\ names X = names dir /\ absolute f = absolute dir.
Proof.
  intros (n & N & I & [(-> & D)|(-> & ->)]).
  - split; [exact D|]. exists dir, n. repeat split; auto. now apply absolute_app.
  - split; [discriminate|]. exists [], n. repeat split; auto.
Qed.
Lemma find_first fs cwd can PATH before d after a : PATH = before ++ d :: after -> ~ In "/"%char a -> a <> [] ->
  (forall p, can p = true <-> runnable fs cwd p) -> ~ In [] PATH ->
  (forall e, In e before -> ~ runnable fs cwd (in_directory e a)) -> runnable fs cwd (in_directory d a) ->
  find_in_path can a PATH = Some (path_append d a).
Proof.
  intros -> I N Can Ne Hb Hd. assert (R : forall e, e <> [] -> (can (path_append e a) = true <-> runnable fs cwd (in_directory e a))).
  { intros e He. rewrite Can. destruct (path_append_spec e a He (no_slash_relative a I) N) as (X & E & Nm & Ab). rewrite E.
    unfold in_directory. destruct (is_nil e) eqn:En; [destruct e; [contradiction|discriminate En]|].
    change ($"/" ++ a) with ("/"%char :: a). apply runnable_same; [destruct X; discriminate|destruct e; discriminate| |].
    - rewrite Ab. symmetry. now apply absolute_app.
    - now rewrite !names_slash, Nm. }
  induction before as [|e before IH]; cbn [app find_in_path] in *.
  - destruct (is_nil d) eqn:En; [destruct d; [exfalso; apply Ne; now left|discriminate En]|].
    now rewrite (proj2 (R d (fun E => Ne (or_introl E))) Hd).
  - destruct (is_nil e) eqn:En; [destruct e; [exfalso; apply Ne; now left|discriminate En]|].
    destruct (can (path_append e a)) eqn:C.
    + exfalso. apply (Hb e); [now left|]. apply R; [intros ->; apply Ne; now left|exact C].
    + apply IH; [intros H; apply Ne; now right|intros e' H'; apply Hb; now right].
Qed.

Lemma bin_opens fs cwd pwd can PATH a f dir B : current fs cwd pwd -> (forall p, can p = true <-> runnable fs cwd p) ->
  ~ In [] PATH -> executed fs cwd PATH a f -> lies_in f dir -> opens fs cwd dir B ->
  opens fs cwd (preserveExecutablePath can PATH pwd a) B.
Proof.
  intros C Can Ne Ex Li (Dn & L). destruct (lies_in_split f dir Li) as (_ & X & n & E & N & I & Nm & Ab). clear Li.
  rewrite <- Nm, <- Ab in L. clear Nm Ab Dn dir. revert E L. unfold preserveExecutablePath. destruct Ex as [Is R|before d after Is EP Hb Hd]; intros E L.
  - rewrite E in *. destruct (file_split X n N I) as (_ & F & _). rewrite F. assert (str_eqb n (X ++ "/"%char :: n) = false) as ->.
    { apply str_eqb_neq. intros H. apply I. rewrite H. apply in_app_iff. right. now left. }
    apply bin_leads; assumption.
  - rewrite filename_plain by assumption. assert (str_eqb a a = true) as -> by now apply str_eqb_eq.
    unfold findProgramByName. rewrite (is_slash_in a Is).
    assert (Dne : d <> []) by (intros ->; apply Ne; rewrite EP; apply in_app_iff; right; now left).
    assert (Eq : in_directory d a = d ++ "/"%char :: a) by (unfold in_directory; destruct (is_nil d) eqn:En; [destruct d; [contradiction|discriminate En]|reflexivity]).
    rewrite Eq in E, L. destruct (split_unique _ _ _ _ Is I E) as (<- & <-).
    rewrite (find_first fs cwd can PATH before d after a EP Is N Can Ne Hb Hd).
    destruct (path_append_spec d a Dne (no_slash_relative a I) N) as (Y & EY & NY & AY). rewrite EY. apply bin_leads; auto.
    rewrite NY, AY. rewrite absolute_app in L by assumption. exact L.
Qed.

(** However it is started - by a path, relative or not, or by its name through PATH - oclint looks
    for its own files beside the directory in which it was found. *)
Lemma beside fs cwd b rest B t : opens fs cwd b B -> is_directory fs B ->
  (opens fs cwd (b ++ $"/../" ++ rest) t <-> leads fs (removelast B) (names rest) t).
Proof.
  intros (Bn & L) D. unfold opens. rewrite absolute_app by assumption.
  assert (E : names (b ++ $"/../" ++ rest) = names b ++ $".." :: names rest).
  { change (b ++ $"/../" ++ rest) with (b ++ "/"%char :: ($".." ++ "/"%char :: rest)). rewrite names_slash, names_slash. reflexivity. }
  rewrite E. split.
  - intros (_ & H). eapply leads_on in H; [|exact L]. inversion H; subst; try contradiction. assumption.
  - intros H. split; [destruct b; [contradiction|discriminate]|]. eapply leads_app; [exact L|exact D|]. apply l_up. exact H.
Qed.

Theorem c136_looks_beside_itself : forall fs cwd pwd wd can PATH home a f dir B,
  current fs cwd pwd -> (forall p, can p = true <-> runnable fs cwd p) -> ~ In [] PATH ->
  executed fs cwd PATH a f -> lies_in f dir -> opens fs cwd dir B -> is_directory fs B ->
  let e := started can PATH pwd wd home a in
  (forall s, argRulesPath s = [] -> exists p, rulesPath e s = [p]
     /\ forall t, opens fs cwd p t <-> leads fs (removelast B) [$"lib"; $"oclint"; $"rules"] t)
  /\ (forall t, opens fs cwd (reporterPath e) t <-> leads fs (removelast B) [$"lib"; $"oclint"; $"reporters"] t)
  /\ (exists p ps, configFilePaths e = p :: ps
     /\ forall t, opens fs cwd p t <-> leads fs (removelast B) [$"etc"; $"oclint"] t).
Proof.
  intros fs cwd pwd wd can PATH home a f dir B C Can Ne Ex Li Op D e.
  pose proof (bin_opens _ _ _ _ _ _ _ _ _ C Can Ne Ex Li Op) as Ob.
  split; [|split].
  - intros s Hs. unfold rulesPath. rewrite Hs. eexists. split; [reflexivity|]. intros t.
    rewrite <- (beside fs cwd _ $"lib/oclint/rules" B t Ob D). unfold e, libPath, installPrefix, started, en_bin. rewrite <- !app_assoc. reflexivity.
  - intros t. rewrite <- (beside fs cwd _ $"lib/oclint/reporters" B t Ob D). unfold e, reporterPath, libPath, installPrefix, started, en_bin. rewrite <- !app_assoc. reflexivity.
  - eexists _, _. split; [reflexivity|]. intros t. rewrite <- (beside fs cwd _ $"etc/oclint" B t Ob D). unfold e, etcPath, installPrefix, started, en_bin. rewrite <- !app_assoc. reflexivity.
Qed.

Lemma sublist_members {A} (P : A -> Prop) l s x : sublist_where P l s -> (In x s <-> P x /\ In x l).
Proof.
  induction 1; cbn [In].
  - tauto.
  - rewrite IHsublist_where. split; [intros [->|H']; tauto|tauto].
  - rewrite IHsublist_where. split; [tauto|]. intros (H1 & [->|H2]); tauto.
Qed.
Lemma entry_path fs cwd p L n t : sane fs -> opens fs cwd p L -> is_directory fs L -> fs (L ++ [n]) <> None ->
  (opens fs cwd (p ++ "/"%char :: n) t <-> leads fs L [n] t).
Proof.
  intros Sn (Pn & Lp) Dl H. destruct (fs (L ++ [n])) as [en|] eqn:F; [|contradiction]. destruct (Sn L n en F) as (In & _ & Is).
  unfold opens. rewrite absolute_app, names_slash by assumption. rewrite (names_plain n In Is). split.
  - intros (_ & H'). eapply leads_on; eassumption.
  - intros H'. split; [destruct p; discriminate|]. eapply leads_app; eassumption.
Qed.
(** Without rule paths of the user's, the rules of a run are those of the libraries in
    lib/oclint/rules beside that directory: all of its entries but hidden ones. *)
Theorem c136_default_rules : forall fs cwd pwd wd can PATH home a f dir B lib w s rules,
  sane fs -> current fs cwd pwd -> (forall p, can p = true <-> runnable fs cwd p) -> ~ In [] PATH ->
  executed fs cwd PATH a f -> lies_in f dir -> opens fs cwd dir B -> is_directory fs B ->
  w_env w = started can PATH pwd wd home a -> lists_directories fs cwd w -> opens_libraries fs cwd lib w ->
  options_are w s -> argRulesPath s = [] -> rules_loaded w s rules ->
  exists L, leads fs (removelast B) [$"lib"; $"oclint"; $"rules"] L /\ is_directory fs L
    /\ (forall n, visible n -> fs (L ++ [n]) <> None -> exists t x c rs, leads fs L [n] t /\ fs t = Some (Regular x c) /\ lib c = Some rs)
    /\ (forall k, In k rules <-> exists n t x c rs, visible n /\ leads fs L [n] t /\ fs t = Some (Regular x c) /\ lib c = Some rs /\ In k rs).
Proof.
  intros fs cwd pwd wd can PATH home a f dir B lib w s rules Sn C Can Ne Ex Li Op D En Ld Ol Os Rp (ps & As & Ok & (once & Oc & ->) & Rn).
  destruct (c136_looks_beside_itself fs cwd pwd wd can PATH home a f dir B C Can Ne Ex Li Op D) as (Hr & _ & _).
  destruct (Hr s Rp) as (p & Ep & Hp). rewrite En, Ep in As. clear Hr.
  inversion As as [|d0 ds0 ps0 Hl As0 E0|d0 ds0 es vs ps0 Hl Sub As0 E0].
  { inversion As0; subst. destruct Oc as (_ & Hin & _). destruct once as [|q once]; [contradiction Rn; reflexivity|].
    exfalso. apply (proj1 (Hin q)). now left. }
  subst d0 ds0. inversion As0; subst ps0. rewrite app_nil_r in *. subst ps. clear As As0.
  pose proof (Ld p) as Lp. rewrite Hl in Lp. destruct Lp as (L & Opn & Dl & Hes). exists L.
  split; [now apply Hp|]. split; [exact Dl|].
  assert (Vs : forall n, In n vs <-> visible n /\ fs (L ++ [n]) <> None).
  { intros n. rewrite (sublist_members _ _ _ n Sub), Hes. split.
    - intros (V & [->|[->|H]]); [destruct (V [] eq_refl)|destruct (V $"." eq_refl)|auto].
    - tauto. }
  assert (At : forall n t, fs (L ++ [n]) <> None -> (opens fs cwd (p ++ "/"%char :: n) t <-> leads fs L [n] t)).
  { intros n t. now apply entry_path. }
  assert (Lib : forall n, visible n -> fs (L ++ [n]) <> None -> exists t x c rs, w_rulelib w (p ++ "/"%char :: n) = Some rs
     /\ leads fs L [n] t /\ fs t = Some (Regular x c) /\ lib c = Some rs).
  { intros n V F. assert (I : In (p ++ "/"%char :: n) (map (fun n => p ++ "/"%char :: n) vs)) by (apply in_map_iff; exists n; split; [reflexivity|]; apply Vs; auto).
    pose proof (Ok _ I) as O. pose proof (Ol (p ++ "/"%char :: n)) as Op'. destruct (w_rulelib w (p ++ "/"%char :: n)) as [rs|]; [|contradiction].
    destruct Op' as (t & x & c & O1 & O2 & O3). exists t, x, c, rs. rewrite <- At by assumption. auto. }
  split.
  - intros n V F. destruct (Lib n V F) as (t & x & c & rs & _ & H). eauto.
  - intros k. rewrite in_flat_map. destruct Oc as (_ & Oin & _). split.
    + intros (q & I & K). apply Oin in I. apply in_map_iff in I as (n & <- & I). apply Vs in I as (V & F).
      destruct (Lib n V F) as (t & x & c & rs & E & H1 & H2 & H3). rewrite E in K. exists n, t, x, c, rs. auto.
    + intros (n & t & x & c & rs & V & Lt & Ft & Lc & K).
      assert (F : fs (L ++ [n]) <> None). { inversion Lt; subst; try congruence. destruct (V $"." eq_refl). }
      exists (p ++ "/"%char :: n). split; [apply Oin, in_map_iff; exists n; split; [reflexivity|]; apply Vs; auto|].
      destruct (Lib n V F) as (t' & x' & c' & rs' & E & H1 & H2 & H3). rewrite E.
      assert (t' = t) as -> by (eapply leads_det; eassumption). congruence.
Qed.

(** Such a directory in which every entry is a rule library, at least one of them with a rule,
    is all that loading needs. *)
Lemma one_copy_exists (l : list str) : exists r, one_copy_each l r.
Proof.
  induction l as [|p l (r & IH)] using rev_ind.
  - exists []. split; [constructor|]. split; [tauto|]. intros [|? ?] ? ? ? ? E; discriminate E.
  - destruct (in_dec str_eq_dec p l); [exists r; now apply one_copy_snoc_old|exists (r ++ [p]); now apply one_copy_snoc_new].
Qed.
Lemma sublist_of_visible es : exists vs, sublist_where visible es vs.
Proof. exists (visible_of es). apply visible_of_spec. Qed.
Theorem c136_complete_installation_loads : forall fs cwd pwd wd can PATH home a f dir B L lib w s,
  sane fs -> current fs cwd pwd -> (forall p, can p = true <-> runnable fs cwd p) -> ~ In [] PATH ->
  executed fs cwd PATH a f -> lies_in f dir -> opens fs cwd dir B -> is_directory fs B ->
  w_env w = started can PATH pwd wd home a -> lists_directories fs cwd w -> opens_libraries fs cwd lib w ->
  argRulesPath s = [] ->
  leads fs (removelast B) [$"lib"; $"oclint"; $"rules"] L -> is_directory fs L ->
  (forall n, visible n -> fs (L ++ [n]) <> None -> exists t x c rs, leads fs L [n] t /\ fs t = Some (Regular x c) /\ lib c = Some rs) ->
  (exists n t x c k rs, visible n /\ leads fs L [n] t /\ fs t = Some (Regular x c) /\ lib c = Some (k :: rs)) ->
  exists rules, rules_loaded w s rules.
Proof.
  intros fs cwd pwd wd can PATH home a f dir B L lib w s Sn C Can Ne Ex Li Op D En Ld Ol Rp HL Dl All (n0 & t0 & x0 & c0 & k0 & rs0 & V0 & L0 & F0 & Lc0).
  destruct (c136_looks_beside_itself fs cwd pwd wd can PATH home a f dir B C Can Ne Ex Li Op D) as (Hr & _ & _).
  destruct (Hr s Rp) as (p & Ep & Hp). clear Hr. pose proof (proj2 (Hp L) HL) as Opn.
  pose proof (Ld p) as Lp. destruct (w_list w p) as [es|] eqn:Hl; [|destruct (Lp L Opn Dl)].
  destruct Lp as (L' & Opn' & _ & Hes). assert (L' = L) as -> by (eapply leads_det; [apply Opn'|apply Opn]). clear Opn'.
  destruct (sublist_of_visible es) as (vs & Sub).
  assert (Vs : forall n, In n vs <-> visible n /\ fs (L ++ [n]) <> None).
  { intros n. rewrite (sublist_members _ _ _ n Sub), Hes. split.
    - intros (V & [->|[->|H]]); [destruct (V [] eq_refl)|destruct (V $"." eq_refl)|auto].
    - tauto. }
  set (ps := map (fun n => p ++ "/"%char :: n) vs).
  assert (Ok : forall n, In n vs -> exists t x c rs, leads fs L [n] t /\ fs t = Some (Regular x c) /\ lib c = Some rs /\ w_rulelib w (p ++ "/"%char :: n) = Some rs).
  { intros n I. apply Vs in I as (V & F). destruct (All n V F) as (t & x & c & rs & Ln & Ft & Lc). exists t, x, c, rs.
    pose proof (Ol (p ++ "/"%char :: n)) as Op'. pose proof (proj2 (entry_path fs cwd p L n t Sn Opn Dl F) Ln) as On.
    destruct (w_rulelib w (p ++ "/"%char :: n)) as [rs'|].
    - destruct Op' as (t' & x' & c' & O1 & O2 & O3). assert (t' = t) as -> by (eapply leads_det; [apply O1|apply On]). repeat split; auto. congruence.
    - rewrite (Op' t x c On Ft) in Lc. discriminate Lc. }
  destruct (one_copy_exists ps) as (once & Oc).
  exists (flat_map (fun p => match w_rulelib w p with Some rs => rs | None => [] end) once), ps. split; [|split; [|split]].
  - rewrite En, Ep. unfold ps. rewrite <- (app_nil_r (map _ vs)). eapply asked_readable; [exact Hl|exact Sub|constructor].
  - intros q I. apply in_map_iff in I as (n & <- & I). destruct (Ok n I) as (t & x & c & rs & _ & _ & _ & ->). discriminate.
  - exists once. auto.
  - assert (Fn : fs (L ++ [n0]) <> None). { inversion L0; subst; try congruence. destruct (V0 $"." eq_refl). }
    assert (I : In n0 vs) by (apply Vs; auto). destruct (Ok n0 I) as (t & x & c & rs & Ln & Ft & Lc & Wr).
    assert (t = t0) as -> by (eapply leads_det; eassumption). assert (rs = k0 :: rs0) as -> by congruence.
    intros E. assert (K : In k0 (flat_map (fun p => match w_rulelib w p with Some rs => rs | None => [] end) once)).
    { apply in_flat_map. exists (p ++ "/"%char :: n0). split; [apply Oc, in_map_iff; eauto|]. rewrite Wr. now left. }
    rewrite E in K. contradiction K.
Qed.

(** ** A concrete machine: files given by a table, links resolved by [r] *)
Fixpoint path_eqb (a b : list str) : bool :=
  match a, b with
  | [], [] => true
  | x :: a', y :: b' => str_eqb x y && path_eqb a' b'
  | _, _ => false
  end.
Lemma path_eqb_eq a b : path_eqb a b = true <-> a = b.
Proof.
  revert b. induction a as [|x a IH]; intros [|y b]; cbn; try (split; [discriminate|discriminate]); [tauto|].
  rewrite andb_true_iff, IH, str_eqb_eq. split; [intros (-> & ->); reflexivity|intros [= -> ->]; auto].
Qed.
Definition table := list (list str * entry).
Definition fs_of (l : table) : filesystem := fun p => option_map snd (find (fun x => path_eqb (fst x) p) l).
Definition is_dirb (fs : filesystem) (t : list str) : bool :=
  is_nil t || match fs t with Some Directory => true | _ => false end.
Lemma is_dirb_spec fs t : is_dirb fs t = true <-> is_directory fs t.
Proof.
  unfold is_dirb, is_directory. rewrite orb_true_iff. destruct t as [|x t]; cbn [is_nil]; [tauto|].
  destruct (fs (x :: t)) as [[| |]|]; split; intros [H|H]; try discriminate H; auto.
Qed.
Fixpoint walk (fs : filesystem) (r : list str -> option (list str)) (d ns : list str) : option (list str) :=
  match ns with
  | [] => Some d
  | n :: ns' =>
      if str_eqb n $".." then walk fs r (removelast d) ns'
      else match fs (d ++ [n]) with
           | None => None
           | Some Directory => walk fs r (d ++ [n]) ns'
           | Some (Regular _ _) => match ns' with [] => Some (d ++ [n]) | _ => None end
           | Some (Symlink _) => match r (d ++ [n]) with
                                 | Some m => if is_dirb fs m then walk fs r m ns' else match ns' with [] => Some m | _ => None end
                                 | None => None
                                 end
           end
  end.
Definition resolves (fs : filesystem) (r : list str -> option (list str)) : Prop :=
  forall d n to, fs (d ++ [n]) = Some (Symlink to) ->
    exists m, r (d ++ [n]) = Some m /\
      (leads fs (if absolute to then [] else d) (names to) m /\ is_directory fs m
       \/ exists a b p x c, names to = a ++ [b] /\ b <> $".." /\ leads fs (if absolute to then [] else d) a p /\ is_directory fs p
            /\ m = p ++ [b] /\ fs m = Some (Regular x c)).
Lemma walk_spec fs r : resolves fs r -> forall ns d t, walk fs r d ns = Some t <-> leads fs d ns t.
Proof.
  intros R. induction ns as [|n ns IH]; intros d t; cbn [walk].
  - split; [intros [= <-]; constructor|intros H; now inversion H].
  - destruct (str_eqb n $"..") eqn:E.
    + apply str_eqb_eq in E as ->. rewrite IH. split; [apply l_up|]. intros H. inversion H; subst; try contradiction. assumption.
    + apply str_eqb_neq in E. destruct (fs (d ++ [n])) as [[|x c|to]|] eqn:F.
      * rewrite IH. split; [now apply l_down|]. intros H. inversion H; subst; try contradiction; try congruence; assumption.
      * destruct ns as [|m ns].
        -- split; [intros [= <-]; eapply l_file; eassumption|]. intros H. inversion H; subst; try contradiction; try congruence.
        -- split; [discriminate|]. intros H. inversion H; subst; try contradiction; try congruence.
      * destruct (R d n to F) as (m & -> & [(L & Dm)|(a & b & p & x & c & Nt & Nb & L & Dp & -> & Fm)]).
        -- rewrite (proj2 (is_dirb_spec fs m) Dm), IH. split.
           ++ intros H. eapply l_link; [exact E|exact F|]. eapply leads_app; eassumption.
           ++ intros H. inversion H as [|d1 n1 t1 H1|d1 n1 l1 t1 H1 H2 H3|d1 n1 x1 c1 H1 H2|d1 n1 to1 l1 t1 H1 H2 H3]; subst; try contradiction; try congruence.
              assert (to1 = to) as -> by congruence. eapply leads_on; eassumption.
        -- assert (Nd : is_dirb fs (p ++ [b]) = false).
           { destruct (is_dirb fs (p ++ [b])) eqn:X; [|reflexivity]. apply is_dirb_spec in X as [X|X]; [destruct p; discriminate X|congruence]. }
           rewrite Nd. split.
           ++ destruct ns as [|n' ns]; [|discriminate]. intros [= <-]. eapply l_link; [exact E|exact F|]. rewrite app_nil_r, Nt. eapply leads_app; [exact L|exact Dp|].
              eapply l_file; eassumption.
           ++ intros H. inversion H as [|d1 n1 t1 H1|d1 n1 l1 t1 H1 H2 H3|d1 n1 x1 c1 H1 H2|d1 n1 to1 l1 t1 H1 H2 H3]; subst; try contradiction; try congruence.
              assert (to1 = to) as -> by congruence. rewrite Nt, <- app_assoc in H3. apply (leads_on _ _ _ _ _ _ L) in H3. cbn [app] in H3.
              inversion H3; subst; try contradiction; try congruence.
      * split; [discriminate|]. intros H. inversion H; subst; try contradiction; try congruence.
Qed.
Definition locate (fs : filesystem) r (cwd : list str) (p : str) : option (list str) :=
  if is_nil p then None else walk fs r (if absolute p then [] else cwd) (names p).
Lemma locate_spec fs r cwd p t : resolves fs r -> (locate fs r cwd p = Some t <-> opens fs cwd p t).
Proof.
  intros R. unfold locate, opens. destruct p as [|c p]; cbn [is_nil].
  - split; [discriminate|]. intros (H & _). now contradiction H.
  - rewrite (walk_spec fs r R). split; [|tauto]. intros H. split; [discriminate|exact H].
Qed.
Definition can_of (fs : filesystem) r cwd (p : str) : bool :=
  match locate fs r cwd p with Some t => match fs t with Some (Regular true _) => true | _ => false end | None => false end.
Lemma can_spec fs r cwd : resolves fs r -> forall p, can_of fs r cwd p = true <-> runnable fs cwd p.
Proof.
  intros R p. unfold can_of, runnable. split.
  - destruct (locate fs r cwd p) as [t|] eqn:E; [|discriminate]. apply (locate_spec fs r cwd p t R) in E.
    destruct (fs t) as [[|[] c|]|] eqn:F; try discriminate. eauto.
  - intros (t & c & O & F). apply (locate_spec fs r cwd p t R) in O. now rewrite O, F.
Qed.
Fixpoint entry_name (t q : list str) : option str :=
  match t, q with
  | [], [n] => Some n
  | x :: t', y :: q' => if str_eqb x y then entry_name t' q' else None
  | _, _ => None
  end.
Lemma entry_name_spec t q n : entry_name t q = Some n <-> q = t ++ [n].
Proof.
  revert q. induction t as [|x t IH]; intros [|y q]; cbn [entry_name app].
  - split; discriminate.
  - destruct q; split; intros H; inversion H; reflexivity.
  - split; discriminate.
  - destruct (str_eqb x y) eqn:E.
    + apply str_eqb_eq in E as ->. rewrite IH. split; [intros ->; reflexivity|intros [= ->]; reflexivity].
    + apply str_eqb_neq in E. split; [discriminate|]. intros [= -> _]. contradiction.
Qed.
Definition entries (l : table) (t : list str) : list str :=
  $"." :: $".." :: flat_map (fun x => match entry_name t (fst x) with Some n => [n] | None => [] end) l.
Lemma entries_spec l t n : In n (entries l t) <-> n = $"." \/ n = $".." \/ fs_of l (t ++ [n]) <> None.
Proof.
  unfold entries. cbn [In].
  assert (In n (flat_map (fun x => match entry_name t (fst x) with Some n => [n] | None => [] end) l) <-> fs_of l (t ++ [n]) <> None).
  { rewrite in_flat_map. unfold fs_of. split.
    - intros (x & I & H). destruct (entry_name t (fst x)) as [m|] eqn:E; [|contradiction]. destruct H as [->|[]]. apply entry_name_spec in E.
      destruct (find _ l) as [y|] eqn:F; [discriminate|]. exfalso. apply (find_none _ _ F) in I. rewrite E in I.
      assert (path_eqb (t ++ [n]) (t ++ [n]) = true) by now apply path_eqb_eq. congruence.
    - destruct (find _ l) as [y|] eqn:F; [|intros H; now contradiction H]. intros _. apply find_some in F as (I & F). apply path_eqb_eq in F.
      exists y. split; [exact I|]. apply entry_name_spec in F. rewrite F. now left. }
  rewrite H. split; intros [K|[K|K]]; auto.
Qed.
(** The loaders' view of such a machine. *)
Definition list_of (l : table) r cwd (p : str) : option (list str) :=
  match locate (fs_of l) r cwd p with Some t => if is_dirb (fs_of l) t then Some (entries l t) else None | None => None end.
Definition rulelib_of (l : table) r cwd (lib : str -> option (list nat)) (p : str) : option (list nat) :=
  match locate (fs_of l) r cwd p with Some t => match fs_of l t with Some (Regular _ c) => lib c | _ => None end | None => None end.
Lemma list_of_spec l r cwd w : resolves (fs_of l) r -> w_list w = list_of l r cwd -> lists_directories (fs_of l) cwd w.
Proof.
  intros R E p. rewrite E. unfold list_of. destruct (locate (fs_of l) r cwd p) as [t|] eqn:L.
  - apply (locate_spec _ _ _ _ _ R) in L. destruct (is_dirb (fs_of l) t) eqn:D.
    + exists t. rewrite <- is_dirb_spec. split; [exact L|]. split; [exact D|]. intros n. apply entries_spec.
    + intros t' O. assert (t' = t) as -> by (eapply leads_det; [apply O|apply L]). rewrite <- is_dirb_spec. congruence.
  - intros t O. apply (locate_spec _ _ _ _ _ R) in O. congruence.
Qed.
Lemma rulelib_of_spec l r cwd lib w : resolves (fs_of l) r -> w_rulelib w = rulelib_of l r cwd lib -> opens_libraries (fs_of l) cwd lib w.
Proof.
  intros R E p. rewrite E. unfold rulelib_of. destruct (locate (fs_of l) r cwd p) as [t|] eqn:L.
  - apply (locate_spec _ _ _ _ _ R) in L. destruct (fs_of l t) as [[|x c|]|] eqn:F.
    + intros t' x' c' O F'. assert (t' = t) as -> by (eapply leads_det; [apply O|apply L]). congruence.
    + destruct (lib c) as [rs|] eqn:Lc; [exists t, x, c; auto|].
      intros t' x' c' O F'. assert (t' = t) as -> by (eapply leads_det; [apply O|apply L]). congruence.
    + intros t' x' c' O F'. assert (t' = t) as -> by (eapply leads_det; [apply O|apply L]). congruence.
    + intros t' x' c' O F'. assert (t' = t) as -> by (eapply leads_det; [apply O|apply L]). congruence.
  - intros t x c O. apply (locate_spec _ _ _ _ _ R) in O. congruence.
Qed.
Lemma table_in l p e : fs_of l p = Some e -> In (p, e) l.
Proof.
  unfold fs_of. destruct (find _ l) as [[q y]|] eqn:F; [|discriminate]. intros [= <-]. apply find_some in F as (I & F).
  apply path_eqb_eq in F. cbn in F. now subst q.
Qed.
Definition sane_entry (q : list str) : bool :=
  match rev q with [] => true | n :: _ => is_name n && negb (str_eqb n $"..") && negb (existsb is_slash n) end.
Lemma table_sane l : forallb (fun x => sane_entry (fst x)) l = true -> sane (fs_of l).
Proof.
  intros H d n e F. apply table_in in F. rewrite forallb_forall in H. apply H in F. cbn [fst] in F. unfold sane_entry in F. rewrite rev_app_distr in F. cbn [rev app] in F.
  rewrite !andb_true_iff, !negb_true_iff in F. destruct F as ((F1 & F2) & F3). split; [exact F1|]. split; [now apply str_eqb_neq|].
  intros I. assert (existsb is_slash n = true) by (apply existsb_exists; exists "/"%char; auto). congruence.
Qed.

(** The distribution in /opt/oclint, its directory of programs reachable as /tools, which is in
    PATH behind an unrelated directory; the user works in /w. *)
Definition exi_table : table :=
  [([$"opt"], Directory); ([$"opt"; $"oclint"], Directory); ([$"opt"; $"oclint"; $"bin"], Directory);
   ([$"opt"; $"oclint"; $"bin"; $"oclint"], Regular true $"program");
   ([$"opt"; $"oclint"; $"lib"], Directory); ([$"opt"; $"oclint"; $"lib"; $"oclint"], Directory);
   ([$"opt"; $"oclint"; $"lib"; $"oclint"; $"rules"], Directory);
   ([$"opt"; $"oclint"; $"lib"; $"oclint"; $"rules"; $"libShort.so"], Regular false $"S");
   ([$"opt"; $"oclint"; $"lib"; $"oclint"; $"rules"; $"libLong.so"], Regular false $"L");
   ([$"opt"; $"oclint"; $"lib"; $"oclint"; $"rules"; $".hidden"], Regular false $"junk");
   ([$"usr"], Directory); ([$"usr"; $"bin"], Directory); ([$"w"], Directory); ([$"w"; $"oclint"], Regular false $"text");
   ([$"tools"], Symlink $"/opt/oclint/bin")].
Definition exi_r (p : list str) : option (list str) := Some [$"opt"; $"oclint"; $"bin"].
Definition exi_cwd : list str := [$"w"].
Definition exi_PATH : list str := [$"/usr/bin"; $"/tools"].
Definition exi_can : str -> bool := can_of (fs_of exi_table) exi_r exi_cwd.
Definition exi_lib (c : str) : option (list nat) :=
  if str_eqb c $"S" then Some [3] else if str_eqb c $"L" then Some [4; 5] else None.
Definition exi_world (a : str) : world :=
  {| w_list := list_of exi_table exi_r exi_cwd; w_rulelib := rulelib_of exi_table exi_r exi_cwd exi_lib;
     w_replib := fun _ => None; w_read := fun _ => None; w_yaml := fun _ => cf_initial;
     w_env := started exi_can exi_PATH (Some $"/w") (Some $"/w") None a;
     w_cmdline := Some {| cl_output := None; cl_reportType := None; cl_R := []; cl_rc := [];
        cl_rule := []; cl_disableRule := []; cl_maxP1 := None; cl_maxP2 := None; cl_maxP3 := None;
        cl_globalAnalysis := None; cl_clangChecker := None; cl_duplications := None |};
     w_listRules := false; w_canOpen := fun _ => true; w_accepts := fun _ => 0;
     w_rules := fun a => {| ri_name := $"r"; ri_identifier := $"R"; ri_category := $"c"; ri_priority := 3%Z |};
     w_driver := fun sel => (c_empty, Val tt); w_hash := fun _ => 0%Z |}.
Lemma exi_resolves : resolves (fs_of exi_table) exi_r.
Proof.
  intros d n to F. apply table_in in F.
  assert (to = $"/opt/oclint/bin") as ->.
  { repeat (destruct F as [F|F]; [injection F; intros; try congruence|]); try discriminate; try contradiction F. }
  exists [$"opt"; $"oclint"; $"bin"]. split; [reflexivity|]. left. split; [|right; reflexivity].
  change (names $"/opt/oclint/bin") with [$"opt"; $"oclint"; $"bin"]. cbn [absolute].
  do 3 (apply l_down; [discriminate|reflexivity|]). apply l_here.
Qed.
Example c136_case : forall a f dir, In (a, f, dir) [($"oclint", $"/tools/oclint", $"/tools"); ($"../opt//oclint/bin/oclint", $"../opt//oclint/bin/oclint", $"../opt//oclint/bin")] ->
  let fs := fs_of exi_table in let B := [$"opt"; $"oclint"; $"bin"] in
  sane fs /\ current fs exi_cwd (Some $"/w") /\ (forall p, exi_can p = true <-> runnable fs exi_cwd p) /\ ~ In [] exi_PATH
  /\ executed fs exi_cwd exi_PATH a f /\ lies_in f dir /\ opens fs exi_cwd dir B /\ is_directory fs B
  /\ lists_directories fs exi_cwd (exi_world a) /\ opens_libraries fs exi_cwd exi_lib (exi_world a)
  /\ exists s rules, options_are (exi_world a) s /\ argRulesPath s = [] /\ rules_loaded (exi_world a) s rules
     /\ In 3 rules /\ In 4 rules /\ In 5 rules /\ ~ In 6 rules.
Proof.
  intros a f dir I fs B. pose proof exi_resolves as R. fold fs in R.
  split; [now apply table_sane|]. split; [split; [right; reflexivity|split; [reflexivity|apply (locate_spec fs exi_r); [exact R|reflexivity]]]|].
  split; [now apply can_spec|]. split; [intros [H|[H|[]]]; discriminate H|].
  assert (Sane : sane fs) by now apply table_sane.
  assert (Cu : current fs exi_cwd (Some $"/w")) by (split; [right; reflexivity|split; [reflexivity|apply (locate_spec fs exi_r); [exact R|reflexivity]]]).
  assert (Ex : executed fs exi_cwd exi_PATH a f).
  { destruct I as [[= <- <- <-]|[[= <- <- <-]|[]]].
    - change $"/tools/oclint" with (in_directory $"/tools" $"oclint"). apply (by_name fs exi_cwd exi_PATH $"oclint" [$"/usr/bin"] $"/tools" []).
      + intros H. repeat (destruct H as [H|H]; [discriminate H|]). contradiction H.
      + reflexivity.
      + intros e [<-|[]] H. apply (can_spec fs exi_r exi_cwd R) in H. vm_compute in H. discriminate H.
      + apply (can_spec fs exi_r exi_cwd R). reflexivity.
    - apply by_path; [right; right; now left|]. apply (can_spec fs exi_r exi_cwd R). reflexivity. }
  assert (Li : lies_in f dir).
  { exists $"oclint". split; [discriminate|]. split; [intros H; repeat (destruct H as [H|H]; [discriminate H|]); contradiction H|].
    left. destruct I as [[= <- <- <-]|[[= <- <- <-]|[]]]; (split; [reflexivity|discriminate]). }
  assert (Od : opens fs exi_cwd dir B).
  { apply (locate_spec fs exi_r); [exact R|]. destruct I as [[= <- <- <-]|[[= <- <- <-]|[]]]; reflexivity. }
  assert (Db : is_directory fs B) by (right; reflexivity).
  assert (Ld : lists_directories fs exi_cwd (exi_world a)) by (apply (list_of_spec exi_table exi_r); [exact R|reflexivity]).
  assert (Ol : opens_libraries fs exi_cwd exi_lib (exi_world a)) by (apply (rulelib_of_spec exi_table exi_r); [exact R|reflexivity]).
  split; [exact Ex|]. split; [exact Li|]. split; [exact Od|]. split; [exact Db|]. split; [exact Ld|]. split; [exact Ol|].
  assert (Op : exists s, options_are (exi_world a) s /\ argRulesPath s = []).
  { eexists. split; [eexists; split; reflexivity|]. reflexivity. }
  destruct Op as (s & Os & Rp). exists s.
  destruct (c136_complete_installation_loads fs exi_cwd (Some $"/w") (Some $"/w") exi_can exi_PATH None a f dir B
     [$"opt"; $"oclint"; $"lib"; $"oclint"; $"rules"] exi_lib (exi_world a) s) as (rules & Rl); auto.
  { now apply can_spec. } { intros [H|[H|[]]]; discriminate H. }
  { apply (walk_spec fs exi_r R). reflexivity. } { right. reflexivity. }
  { intros n V F. destruct (fs _) as [en|] eqn:E in F; [|contradiction F; reflexivity]. clear F. apply table_in in E as E'.
    assert (N : n = $"libShort.so" \/ n = $"libLong.so").
    { repeat (destruct E' as [E'|E']; [injection E'; intros; subst; auto; try discriminate; try (exfalso; eapply V; reflexivity)|]). contradiction E'. }
    clear E E'. destruct N as [-> | ->]; eexists _, false, _, _; (split; [eapply l_file; [discriminate|reflexivity]|split; reflexivity]). }
  { exists $"libShort.so". eexists _, false, _, _, _. split; [intros r H; discriminate H|]. split; [eapply l_file; [discriminate|reflexivity]|split; reflexivity]. }
  exists rules. split; [exact Os|]. split; [exact Rp|]. split; [exact Rl|].
  destruct (c136_default_rules fs exi_cwd (Some $"/w") (Some $"/w") exi_can exi_PATH None a f dir B exi_lib (exi_world a) s rules) as (L & HL & _ & _ & Hk); auto.
  { now apply can_spec. } { intros [H|[H|[]]]; discriminate H. }
  apply (walk_spec fs exi_r R) in HL. injection HL as <-.
  assert (Rd : forall n c rs k, visible n -> fs [$"opt"; $"oclint"; $"lib"; $"oclint"; $"rules"; n] = Some (Regular false c) -> n <> $".." ->
     exi_lib c = Some rs -> In k rs -> In k rules).
  { intros n c rs k V F Nd Lc K. apply Hk. exists n. eexists _, false, c, rs. split; [exact V|]. split; [eapply l_file; [exact Nd|exact F]|]. auto. }
  split; [apply (Rd $"libShort.so" $"S" [3]); try reflexivity; [intros r H; discriminate H|discriminate|now left]|].
  split; [apply (Rd $"libLong.so" $"L" [4; 5]); try reflexivity; [intros r H; discriminate H|discriminate|now left]|].
  split; [apply (Rd $"libLong.so" $"L" [4; 5]); try reflexivity; [intros r H; discriminate H|discriminate|right; now left]|].
  intros H. apply Hk in H as (n & t & x & c & rs & _ & _ & _ & Lc & K). unfold exi_lib in Lc. destruct (str_eqb c $"S"); [|destruct (str_eqb c $"L"); [|discriminate Lc]];
    injection Lc as <-; cbn in K; intuition discriminate.
Qed.

(** A link to the program itself, from a directory of its own, does not lead to the rules: they are
    looked for beside the link, although the program and its rules are complete where it points. *)
Theorem c136_link_to_the_program_refuted : exists fs cwd pwd a t B L,
  sane fs /\ current fs cwd pwd /\ (forall PATH, executed fs cwd PATH a a) /\ opens fs cwd a (B ++ t)
  /\ is_directory fs B /\ (exists c, fs (B ++ t) = Some (Regular true c)) /\ length t = 1
  /\ leads fs (removelast B) [$"lib"; $"oclint"; $"rules"] L /\ is_directory fs L
  /\ forall can PATH wd home s, argRulesPath s = [] ->
     exists p, rulesPath (started can PATH pwd wd home a) s = [p] /\ forall u, ~ opens fs cwd p u.
Proof.
  set (fs := fs_of [([$"opt"], Directory); ([$"opt"; $"bin"], Directory); ([$"opt"; $"bin"; $"oclint"], Regular true $"program");
    ([$"opt"; $"lib"], Directory); ([$"opt"; $"lib"; $"oclint"], Directory); ([$"opt"; $"lib"; $"oclint"; $"rules"], Directory);
    ([$"usr"], Directory); ([$"usr"; $"bin"], Directory); ([$"usr"; $"bin"; $"oclint"], Symlink $"../../opt/bin/oclint")]).
  assert (O : opens fs [$"usr"] $"bin/oclint" [$"opt"; $"bin"; $"oclint"]).
  { split; [discriminate|]. change (names $"bin/oclint") with [$"bin"; $"oclint"]. cbn [absolute].
    apply l_down; [discriminate|reflexivity|]. eapply l_link; [discriminate|reflexivity|].
    change (names $"../../opt/bin/oclint") with [$".."; $".."; $"opt"; $"bin"; $"oclint"]. cbn [app]. apply l_up, l_up.
    do 2 (apply l_down; [discriminate|reflexivity|]). eapply l_file; [discriminate|reflexivity]. }
  exists fs, [$"usr"], (Some $"/usr"), $"bin/oclint", [$"oclint"], [$"opt"; $"bin"], [$"opt"; $"lib"; $"oclint"; $"rules"].
  split; [now apply table_sane|]. split.
  { split; [right; reflexivity|]. split; [reflexivity|]. split; [discriminate|]. change (names $"/usr") with [$"usr"]. cbn [absolute].
    apply l_down; [discriminate|reflexivity|constructor]. }
  split. { intros PATH. apply by_path; [do 3 right; now left|]. eexists _, _. split; [exact O|reflexivity]. }
  split; [exact O|]. split; [right; reflexivity|]. split; [eexists; reflexivity|]. split; [reflexivity|].
  split. { do 3 (apply l_down; [discriminate|reflexivity|]). constructor. } split; [right; reflexivity|].
  intros can PATH wd home s Rp. unfold rulesPath. rewrite Rp. eexists. split; [reflexivity|]. intros u (_ & H).
  match type of H with context [names ?p] => change (names p) with [$"usr"; $"bin"; $".."; $"lib"; $"oclint"; $"rules"] in H end.
  cbn in H.
  repeat match goal with
  | H : leads fs _ (_ :: _) _ |- _ => inversion H; subst; clear H; try contradiction; try discriminate
  end.
Qed.

(** An empty entry of PATH is the current directory for the shell but nothing for oclint: the
    installation that is run need not be the one whose rules are loaded. *)
Theorem c136_empty_entry_of_PATH_refuted : exists fs cwd pwd PATH a f B,
  sane fs /\ current fs cwd pwd /\ executed fs cwd PATH a f /\ lies_in f $"." /\ opens fs cwd $"." B /\ is_directory fs B
  /\ forall can, (forall p, can p = true <-> runnable fs cwd p) -> forall wd home s, argRulesPath s = [] ->
     exists p D, rulesPath (started can PATH pwd wd home a) s = [p] /\ (forall u, opens fs cwd p u <-> leads fs D [$"lib"; $"oclint"; $"rules"] u)
       /\ D <> removelast B
       /\ (exists u, leads fs D [$"lib"; $"oclint"; $"rules"] u) /\ exists u, leads fs (removelast B) [$"lib"; $"oclint"; $"rules"] u.
Proof.
  set (fs := fs_of [([$"new"], Directory); ([$"new"; $"bin"], Directory); ([$"new"; $"bin"; $"oclint"], Regular true $"new program");
    ([$"new"; $"lib"], Directory); ([$"new"; $"lib"; $"oclint"], Directory); ([$"new"; $"lib"; $"oclint"; $"rules"], Directory);
    ([$"old"], Directory); ([$"old"; $"bin"], Directory); ([$"old"; $"bin"; $"oclint"], Regular true $"old program");
    ([$"old"; $"lib"], Directory); ([$"old"; $"lib"; $"oclint"], Directory); ([$"old"; $"lib"; $"oclint"; $"rules"], Directory)]).
  assert (Ol : opens fs [$"new"; $"bin"] $"/old/bin/oclint" [$"old"; $"bin"; $"oclint"]).
  { split; [discriminate|]. change (names $"/old/bin/oclint") with [$"old"; $"bin"; $"oclint"]. cbn [absolute].
    do 2 (apply l_down; [discriminate|reflexivity|]). eapply l_file; [discriminate|reflexivity]. }
  exists fs, [$"new"; $"bin"], (Some $"/new/bin"), [[]; $"/old/bin"], $"oclint", $"./oclint", [$"new"; $"bin"].
  split; [now apply table_sane|]. split.
  { split; [right; reflexivity|]. split; [reflexivity|]. split; [discriminate|]. change (names $"/new/bin") with [$"new"; $"bin"]. cbn [absolute].
    do 2 (apply l_down; [discriminate|reflexivity|]). constructor. }
  assert (Ns : ~ In "/"%char $"oclint") by (intros H; repeat (destruct H as [H|H]; [discriminate H|]); contradiction H).
  split.
  { change $"./oclint" with (in_directory [] $"oclint"). apply (by_name _ _ _ _ [] [] [$"/old/bin"]); [exact Ns|reflexivity|intros e []|].
    eexists _, _. split; [split; [discriminate|]|]. change (names (in_directory [] $"oclint")) with [$"oclint"]. eapply l_file; [discriminate|reflexivity]. reflexivity. }
  split. { exists $"oclint". split; [discriminate|]. split; [exact Ns|]. left. split; [reflexivity|discriminate]. }
  split. { split; [discriminate|]. constructor. } split; [right; reflexivity|].
  intros can Can wd home s Rp.
  assert (Cn : can $"/old/bin/oclint" = true) by (apply Can; eexists _, _; split; [exact Ol|reflexivity]).
  assert (Bn : preserveExecutablePath can [[]; $"/old/bin"] (Some $"/new/bin") $"oclint" = $"/old/bin").
  { unfold preserveExecutablePath. change (str_eqb (filename $"oclint") $"oclint") with true. cbn [findProgramByName].
    change (findProgramByName can [[]; $"/old/bin"] (filename $"oclint")) with (if can $"/old/bin/oclint" then Some $"/old/bin/oclint" else None).
    rewrite Cn. reflexivity. }
  assert (Ob : opens fs [$"new"; $"bin"] $"/old/bin" [$"old"; $"bin"]).
  { split; [discriminate|]. change (names $"/old/bin") with [$"old"; $"bin"]. cbn [absolute]. do 2 (apply l_down; [discriminate|reflexivity|]). constructor. }
  unfold rulesPath. rewrite Rp. eexists _, [$"old"]. split; [reflexivity|]. split.
  { intros u. unfold libPath, installPrefix, started, en_bin. rewrite Bn.
    exact (beside fs [$"new"; $"bin"] $"/old/bin" $"lib/oclint/rules" [$"old"; $"bin"] u Ob (or_intror eq_refl)). }
  split; [discriminate|]. split; eexists; (do 3 (apply l_down; [discriminate|reflexivity|]); constructor).
Qed.

Print Assumptions c136_looks_beside_itself.
Print Assumptions c136_default_rules.
Print Assumptions c136_complete_installation_loads.
Print Assumptions c136_link_to_the_program_refuted.
Print Assumptions c136_empty_entry_of_PATH_refuted.
