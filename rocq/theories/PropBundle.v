(** * C137: the bundle *)
From Verif Require Import Base BaseFacts ModelOptions ModelMain ModelInstall SpecMain ModelScaffold ModelBundle SpecInstall SpecBundle PropInstall.

(** ** Resolving names *)
Definition go (links : nat) (fs : filesystem) : list str -> list str -> option (list str) := follow links fs.
Lemma follow_cons k fs d n ns : follow k fs d (n :: ns) =
  if str_eqb n $".." then follow k fs (removelast d) ns
  else match fs (d ++ [n]) with
       | Some Directory => follow k fs (d ++ [n]) ns
       | Some (Regular _ _) => if is_nil ns then Some (d ++ [n]) else None
       | Some (Symlink to) => match k with O => None | S j => follow j fs (if absolute to then [] else d) (names to ++ ns) end
       | None => None
       end.
Proof. destruct k; reflexivity. Qed.
Lemma follow_nil k fs d : follow k fs d [] = Some d.
Proof. destruct k; reflexivity. Qed.
Lemma follow_within k fs d ns t : follow k fs d ns = Some t -> within fs k d ns t.
Proof.
  revert d ns. induction k as [k IHk] using lt_wf_ind. intros d ns. revert d.
  induction ns as [|n ns IH]; intros d; [rewrite follow_nil; intros [= ->]; constructor|].
  rewrite follow_cons. destruct (str_eqb n $"..") eqn:U.
  - apply str_eqb_eq in U as ->. intros H. apply w_up. auto.
  - assert (N : n <> $"..") by (intros E; apply str_eqb_eq in E; congruence).
    destruct (fs (d ++ [n])) as [[|x c|to]|] eqn:F; try discriminate.
    + intros H. apply w_down; auto.
    + destruct ns; [|discriminate]. intros [= <-]. eapply w_file; eauto.
    + destruct k as [|j]; [discriminate|]. intros H. eapply w_link; eauto.
Qed.
Lemma within_follow k fs d ns t : within fs k d ns t -> follow k fs d ns = Some t.
Proof.
  induction 1.
  - apply follow_nil.
  - rewrite follow_cons. exact IHwithin.
  - rewrite follow_cons. destruct (str_eqb n $"..") eqn:U; [apply str_eqb_eq in U; contradiction|]. now rewrite H0.
  - rewrite follow_cons. destruct (str_eqb n $"..") eqn:U; [apply str_eqb_eq in U; contradiction|]. now rewrite H0.
  - rewrite follow_cons. destruct (str_eqb n $"..") eqn:U; [apply str_eqb_eq in U; contradiction|]. now rewrite H0.
Qed.
Lemma follow_spec k fs d ns t : follow k fs d ns = Some t <-> within fs k d ns t.
Proof. split; [apply follow_within|apply within_follow]. Qed.
Lemma within_leads k fs d ns t : within fs k d ns t -> leads fs d ns t.
Proof. induction 1; [constructor|now apply l_up|now apply l_down|eapply l_file; eauto|eapply l_link; eauto]. Qed.
Lemma within_app k fs d a m b t : within fs k d a m -> is_directory fs m -> within fs 0 m b t -> within fs k d (a ++ b) t.
Proof.
  intros H. revert b t. induction H; intros b t' D H'; cbn [app].
  - clear D. revert k. remember 0 as z eqn:Z. induction H'; intros k'.
    + constructor.
    + apply w_up. auto.
    + apply w_down; auto.
    + eapply w_file; eauto.
    + discriminate Z.
  - apply w_up. auto.
  - apply w_down; auto.
  - destruct D as [D|D]; [destruct d; discriminate D|congruence].
  - eapply w_link; [assumption|eassumption|]. rewrite app_assoc. auto.
Qed.
(** Going down real directories. *)
Lemma within_down fs d b t : (forall a n r, b = a ++ n :: r -> n <> $".." /\ (r <> [] -> fs (d ++ a ++ [n]) = Some Directory)) ->
  t = d ++ b -> (b = [] \/ exists e, fs t = Some e /\ forall to, e <> Symlink to) -> within fs 0 d b t.
Proof.
  revert d. induction b as [|n b IH]; intros d H -> E.
  - rewrite app_nil_r. constructor.
  - destruct (H [] n b eq_refl) as (N & Dn). destruct b as [|m b].
    + destruct E as [E|(e & F & Ne)]; [discriminate|]. destruct e as [|x c|to]; [|eapply w_file; eauto|destruct (Ne to eq_refl)].
      apply w_down; [assumption|exact F|constructor].
    + apply w_down; [assumption|apply Dn; discriminate|]. apply IH.
      * intros a n' r Eb. destruct (H (n :: a) n' r) as (N' & D'); [cbn; now rewrite Eb|]. split; [assumption|]. intros R. rewrite <- app_assoc. apply D', R.
      * now rewrite <- app_assoc.
      * right. destruct E as [E|E]; [discriminate|exact E].
Qed.

(** ** Places *)
Lemma loc_eqb_eq a b : loc_eqb a b = true <-> a = b.
Proof.
  revert b. induction a as [|x a IH]; intros [|y b]; cbn; try (split; discriminate || reflexivity).
  rewrite Bool.andb_true_iff, str_eqb_eq, IH. split; [intros (-> & ->); reflexivity|intros [= -> ->]; auto].
Qed.
Lemma beyond_spec t q r : beyond t q = Some r <-> q = t ++ r.
Proof.
  revert q. induction t as [|x t IH]; intros q; cbn.
  - split; [intros [= ->]; reflexivity|intros ->; reflexivity].
  - destruct q as [|y q]; [split; discriminate|]. destruct (str_eqb x y) eqn:E.
    + apply str_eqb_eq in E as ->. rewrite IH. split; [intros ->; reflexivity|intros [= ->]; reflexivity].
    + split; [discriminate|]. intros [= -> ->]. assert (str_eqb x x = true) by now apply str_eqb_eq. congruence.
Qed.
Lemma beyond_app t r : beyond t (t ++ r) = Some r.
Proof. now apply beyond_spec. Qed.
Lemma beyond_none t q : beyond t q = None -> ~ below t q.
Proof. intros H (r & ->). now rewrite beyond_app in H. Qed.
Lemma beyond_prefix B t r : beyond (B ++ t) (B ++ r) = beyond t r.
Proof.
  induction B as [|x B IH]; [reflexivity|]. cbn. assert (E : str_eqb x x = true) by now apply str_eqb_eq. now rewrite E.
Qed.
Lemma loc_eqb_prefix B t r : loc_eqb (B ++ r) (B ++ t) = loc_eqb r t.
Proof.
  induction B as [|x B IH]; [reflexivity|]. cbn. assert (E : str_eqb x x = true) by now apply str_eqb_eq. now rewrite E.
Qed.
Lemma dir_at_spec fs t : dir_at fs t = true <-> is_directory fs t.
Proof.
  unfold dir_at, is_directory. destruct t as [|x t]; cbn; [tauto|]. destruct (fs (x :: t)) as [[| |]|]; split; intros H; try discriminate; try tauto;
    destruct H as [H|H]; discriminate.
Qed.
Lemma entry_at_spec fs t e : entry_at fs t = Some e <-> holds fs t e.
Proof.
  unfold entry_at, holds. destruct t as [|x t]; cbn.
  - split; [intros [= <-]; auto|]. intros [(_ & ->)|(H & _)]; [reflexivity|contradiction].
  - split; [intros H; right; split; [discriminate|exact H]|]. intros [(H & _)|(_ & H)]; [discriminate|exact H].
Qed.
Lemma existsb_dots r : existsb (str_eqb $"..") r = false <-> ~ In $".." r.
Proof.
  split; intros H.
  - intros I. assert (E : existsb (str_eqb $"..") r = true) by (apply existsb_exists; exists $".."; split; [exact I|now apply str_eqb_eq]). congruence.
  - destruct (existsb (str_eqb $"..") r) eqn:E; [|reflexivity]. apply existsb_exists in E as (x & I & Ex). apply str_eqb_eq in Ex as <-. contradiction.
Qed.
Lemma view_spec fs src r e : view fs [] src r = Some e <-> shows fs src r e.
Proof.
  unfold view, shows. destruct (existsb (str_eqb $"..") r) eqn:E.
  - split; [discriminate|]. intros (N & _). apply existsb_dots in N. congruence.
  - apply existsb_dots in E. change max_links with 40. unfold reaches. split.
    + intros H. split; [exact E|]. destruct (follow 40 fs [] (src ++ r)) as [u|] eqn:F; [|discriminate]. exists u. split; [now apply follow_spec|now apply entry_at_spec].
    + intros (_ & t & W & H). apply follow_spec in W. rewrite W. now apply entry_at_spec.
Qed.

(** ** Lines *)
Lemma lines_spec c : (c = [] /\ lines_of c = [])
  \/ (c <> [] /\ ~ In NL c /\ lines_of c = [c])
  \/ exists l c', c = l ++ NL :: c' /\ ~ In NL l /\ lines_of c = (l ++ [NL]) :: lines_of c'.
Proof.
  induction c as [|x c IH]; [left; auto|right]. cbn [lines_of]. destruct (ascii_eqb x NL) eqn:E.
  - apply ascii_eqb_eq in E as ->. right. exists [], c. repeat split; auto.
  - assert (Nx : x <> NL) by (intros H; apply ascii_eqb_eq in H; congruence).
    destruct IH as [(-> & ->)|[(Nc & Nn & ->)|(l & c' & -> & Nl & ->)]].
    + left. repeat split; [discriminate|intros [H|[]]; contradiction].
    + left. repeat split; [discriminate|intros [H|H]; contradiction].
    + right. exists (x :: l), c'. repeat split. intros [H|H]; contradiction.
Qed.
Lemma head_lines_of k c : head_lines k c (concat (firstn k (lines_of c))).
Proof.
  revert c. induction k as [|k IH]; intros c; [constructor|].
  destruct (lines_spec c) as [(-> & ->)|[(Nc & Nn & ->)|(l & c' & -> & Nl & ->)]].
  - constructor.
  - cbn [firstn]. rewrite firstn_nil. cbn [concat]. rewrite app_nil_r. now constructor.
  - cbn [firstn concat]. rewrite <- app_assoc. cbn [app]. constructor; [exact Nl|apply IH].
Qed.
Lemma lines_line l c : ~ In NL l -> lines_of (l ++ NL :: c) = (l ++ [NL]) :: lines_of c.
Proof.
  induction l as [|x l IH]; intros N; [reflexivity|]. cbn [app lines_of]. destruct (ascii_eqb x NL) eqn:E.
  - apply ascii_eqb_eq in E as ->. exfalso. apply N. now left.
  - rewrite IH; [reflexivity|]. intros H. apply N. now right.
Qed.
Lemma lines_last l : l <> [] -> ~ In NL l -> lines_of l = [l].
Proof.
  induction l as [|x l IH]; intros Ne N; [contradiction|]. cbn [lines_of]. destruct (ascii_eqb x NL) eqn:E.
  - apply ascii_eqb_eq in E as ->. exfalso. apply N. now left.
  - destruct l as [|y l]; [reflexivity|]. rewrite IH; [reflexivity|discriminate|]. intros H. apply N. now right.
Qed.
Lemma head_lines_det n c a b : head_lines n c a -> head_lines n c b -> a = b.
Proof.
  assert (F : forall a, head_lines n c a -> a = concat (firstn n (lines_of c))).
  { clear. induction 1 as [c|n|n l Nl Nn|n l c a Nl H IH]; [reflexivity|reflexivity| |].
    - rewrite lines_last by assumption. cbn [firstn]. rewrite firstn_nil. cbn [concat]. now rewrite app_nil_r.
    - rewrite lines_line by assumption. cbn [firstn concat]. rewrite <- IH, <- app_assoc. reflexivity. }
  intros H H'. now rewrite (F a H), (F b H').
Qed.

(** ** Paths *)
Lemma names_pjoin a b : a <> [] -> absolute b = false -> names (pjoin a b) = names a ++ names b /\ absolute (pjoin a b) = absolute a /\ pjoin a b <> [].
Proof.
  intros A Nb. unfold pjoin. rewrite Nb. destruct (rev a) as [|c ra] eqn:R.
  { exfalso. apply A. rewrite <- (rev_involutive a), R. reflexivity. }
  assert (Ea : a = rev ra ++ [c]) by (rewrite <- (rev_involutive a), R; reflexivity).
  destruct (ascii_eqb c "/"%char) eqn:E.
  - apply ascii_eqb_eq in E as ->. repeat split.
    + rewrite Ea, <- app_assoc. cbn [app]. rewrite names_slash, (names_slash (rev ra) []). now rewrite app_nil_r.
    + now apply absolute_app.
    + rewrite Ea. destruct (rev ra); discriminate.
  - repeat split.
    + change (a ++ $"/" ++ b) with (a ++ "/"%char :: b). apply names_slash.
    + now apply absolute_app.
    + destruct a; [contradiction|discriminate].
Qed.
(** A path below the checkout or another absolute path. *)
Definition good (p : str) (ns : list str) : Prop := names p = ns /\ absolute p = true /\ p <> [].
Lemma good_pjoin a ns b n : good a ns -> absolute b = false -> names b = n -> good (pjoin a b) (ns ++ n).
Proof. intros (Na & Aa & Ne) Ab Nb. destruct (names_pjoin a b Ne Ab) as (H1 & H2 & H3). unfold good. now rewrite H1, H2, Na, Nb. Qed.

Lemma is_nil_false {A} (l : list A) : l <> [] -> is_nil l = false.
Proof. destruct l; [contradiction|reflexivity]. Qed.

(** ** Contents of the bundle as a function *)
Definition contents := list str -> option entry.
Definition put_c (C : contents) (t : list str) (e : entry) : contents := fun r => if loc_eqb r t then Some e else C r.
Definition copy_c (C : contents) (t : list str) (v : contents) : contents := fun r => match beyond t r with Some r' => v r' | None => C r end.
Definition dirs (C : contents) (b : list str) : Prop := forall a r, b = a ++ r -> C a = Some Directory.
Definition plain_link (C : contents) (b : list str) : Prop := forall e, C b = Some e -> forall to, e <> Symlink to.

Lemma dirs_0 (C : contents) : C [] = Some Directory -> dirs C [].
Proof. intros H a r E. symmetry in E. apply app_eq_nil in E as (-> & _). exact H. Qed.
Lemma dirs_snoc C b n : dirs C b -> C (b ++ [n]) = Some Directory -> dirs C (b ++ [n]).
Proof.
  intros Hd H a r. induction r as [|x r _] using rev_ind; intros E; [rewrite app_nil_r in E; now rewrite <- E|].
  rewrite app_assoc in E. apply app_inj_tail in E as (E & _). exact (Hd a r E).
Qed.
Lemma dirs_1 (C : contents) x : C [] = Some Directory -> C [x] = Some Directory -> dirs C [x].
Proof. intros H0 H1. apply (dirs_snoc C [] x); [now apply dirs_0|exact H1]. Qed.
Lemma dirs_2 (C : contents) x y : C [] = Some Directory -> C [x] = Some Directory -> C [x; y] = Some Directory -> dirs C [x; y].
Proof. intros H0 H1 H2. apply (dirs_snoc C [x] y); [now apply dirs_1|exact H2]. Qed.

Section Run.
Variable env : surroundings.
Variable fs0 : filesystem.
Variable ts : list (list str).
Variable D : list str.
Variable W : list str.
Variable rel : str.
Hypothesis rel_down : rel <> $"..".
Let B := D ++ [rel].
Hypothesis Way : way fs0 ts W D.
Hypothesis Bt : In B ts.

Definition safe (s : machine) : Prop := same_off ts fs0 (m_fs s).
Definition st (C : contents) (s : machine) : Prop := safe s /\ forall r, m_fs s (B ++ r) = C r.

Lemma safe_D s : safe s -> follow max_links (m_fs s) [] W = Some D /\ is_directory (m_fs s) D.
Proof.
  intros S. destruct Way as (O & Di & Wy). split; [apply follow_spec, Wy, S|].
  destruct Di as [->|Di]; [now left|]. right. now rewrite (S D O).
Qed.
Lemma follow_end fs ns d n : follow max_links fs [] ns = Some d -> is_directory fs d -> n <> $".." ->
  (forall e, fs (d ++ [n]) = Some e -> (forall to, e <> Symlink to) -> follow max_links fs [] (ns ++ [n]) = Some (d ++ [n]))
  /\ (fs (d ++ [n]) = None -> follow max_links fs [] (ns ++ [n]) = None).
Proof.
  intros F Di N. split.
  - intros e E Ne. apply follow_spec. eapply within_app; [apply follow_spec, F|exact Di|].
    destruct e as [|x c|to]; [apply w_down; [exact N|exact E|constructor]|eapply w_file; eauto|destruct (Ne to eq_refl)].
  - intros E. destruct (follow max_links fs [] (ns ++ [n])) as [t|] eqn:F2; [|reflexivity]. exfalso.
    apply follow_within, within_leads in F2. apply follow_within, within_leads in F. eapply leads_on in F2; [|exact F].
    inversion F2; subst; try contradiction; congruence.
Qed.
Lemma follow_dirs C s b : st C s -> dirs C b -> ~ In $".." b ->
  follow max_links (m_fs s) [] (W ++ rel :: b) = Some (B ++ b) /\ is_directory (m_fs s) (B ++ b).
Proof.
  intros (S & HC) Hd Nd. destruct (safe_D s S) as (F & Di).
  assert (IsD : is_directory (m_fs s) (B ++ b)) by (right; rewrite HC; apply (Hd b []); now rewrite app_nil_r).
  split; [|exact IsD]. apply follow_spec. eapply within_app; [apply follow_spec, F|exact Di|].
  apply within_down.
  - intros a n r E. split.
    + intros ->. apply Nd. destruct a as [|x a]; [injection E as E _; destruct (rel_down E)|]. injection E as _ E. rewrite E. apply in_or_app. right. now left.
    + intros _. destruct a as [|x a].
      * injection E as <- E. change (D ++ [] ++ [rel]) with B. rewrite <- (app_nil_r B), HC. apply (Hd [] b). reflexivity.
      * injection E as <- E. replace (D ++ (rel :: a) ++ [n]) with (B ++ (a ++ [n])) by (unfold B; now rewrite <- app_assoc).
        rewrite HC. apply (Hd _ r). now rewrite <- app_assoc.
  - unfold B. now rewrite <- app_assoc.
  - right. exists Directory. split; [destruct IsD as [E|E]; [unfold B in E; destruct D; discriminate E|exact E]|discriminate].
Qed.
Lemma rev_snoc {A} (l : list A) x : rev (l ++ [x]) = x :: rev l.
Proof. now rewrite rev_app_distr. Qed.
Lemma place_of s p ns n d : good p (ns ++ [n]) -> n <> $".." -> follow max_links (m_fs s) [] ns = Some d -> is_directory (m_fs s) d ->
  place s p = Some (d ++ [n]).
Proof.
  intros (Np & Ap & _) N F Di. unfold place. rewrite Np, rev_snoc, rev_involutive, Ap.
  destruct (str_eqb n $"..") eqn:U; [apply str_eqb_eq in U; contradiction|]. rewrite F.
  assert (E : dir_at (m_fs s) d = true) by now apply dir_at_spec. now rewrite E.
Qed.
Lemma at_path_good s p ns : good p ns -> at_path s p = follow max_links (m_fs s) [] ns.
Proof. intros (Np & Ap & Ne). unfold at_path. rewrite (is_nil_false p Ne), Ap, Np. reflexivity. Qed.

(** The path of the place [b ++ [n]] of the bundle. *)
Definition inside (p : str) (b : list str) : Prop := good p (W ++ rel :: b).
Lemma place_in C s p b n : st C s -> inside p (b ++ [n]) -> dirs C b -> ~ In $".." (b ++ [n]) -> place s p = Some (B ++ b ++ [n]).
Proof.
  intros S I Hd Nd. assert (Nb : ~ In $".." b) by (intros H; apply Nd, in_or_app; now left).
  destruct (follow_dirs C s b S Hd Nb) as (F & Di). rewrite app_assoc. eapply place_of; [| |exact F|exact Di].
  - unfold inside in I. rewrite <- app_assoc. exact I.
  - intros ->. apply Nd, in_or_app. right. now left.
Qed.
Lemma at_in C s p b n : st C s -> inside p (b ++ [n]) -> dirs C b -> ~ In $".." (b ++ [n]) ->
  (forall e, C (b ++ [n]) = Some e -> (forall to, e <> Symlink to) -> at_path s p = Some (B ++ b ++ [n]))
  /\ (C (b ++ [n]) = None -> at_path s p = None).
Proof.
  intros S I Hd Nd. assert (Nb : ~ In $".." b) by (intros H; apply Nd, in_or_app; now left).
  destruct (follow_dirs C s b S Hd Nb) as (F & Di). rewrite (at_path_good s p _ I).
  assert (N : n <> $"..") by (intros ->; apply Nd, in_or_app; right; now left).
  destruct (follow_end (m_fs s) _ _ n F Di N) as (H1 & H2).
  replace (W ++ rel :: b ++ [n]) with ((W ++ rel :: b) ++ [n]) by (now rewrite <- app_assoc).
  rewrite app_assoc. split.
  - intros e E Ne. apply (H1 e); [|exact Ne]. rewrite <- app_assoc. destruct S as (_ & ->). exact E.
  - intros E. apply H2. rewrite <- app_assoc. destruct S as (_ & ->). exact E.
Qed.

(** ** Steps *)
Definition triple (P : machine -> Prop) (m : M unit) (Q : machine -> Prop) : Prop :=
  forall s, P s -> safe (snd (m s)) /\ (fst (m s) = Val tt -> Q (snd (m s))).
Lemma triple_seq P Q R a b : triple P a Q -> triple Q b R -> triple P (seq a b) R.
Proof.
  intros Ha Hb s Ps. destruct (Ha s Ps) as (Sa & Qa). unfold seq, bind. destruct (a s) as ([u|w|] & s'); cbn in *.
  - destruct u. apply Hb. auto.
  - split; [exact Sa|discriminate].
  - split; [exact Sa|discriminate].
Qed.
Lemma triple_weaken (P P' Q Q' : machine -> Prop) m : triple P m Q -> (forall s, P' s -> P s) -> (forall s, Q s -> Q' s) -> triple P' m Q'.
Proof. intros H HP HQ s Ps. destruct (H s (HP s Ps)) as (S & K). auto. Qed.
Lemma triple_when (P Q : machine -> Prop) b m : (forall s, P s -> safe s) -> (b = true -> triple P m Q) -> (b = false -> forall s, P s -> Q s) -> triple P (when b m) Q.
Proof.
  intros HS H1 H2. unfold when. destruct b; [auto|]. intros s Ps. cbn. split; auto.
Qed.
Lemma op_safe t act s : (exists T, In T ts /\ below T t) -> (forall q, ~ below t q -> act (m_fs s) q = m_fs s q) -> safe s ->
  safe (snd (operation env (Some t) act s))
  /\ (fst (operation env (Some t) act s) = Val tt -> m_fs (snd (operation env (Some t) act s)) = act (m_fs s) /\ m_cwd (snd (operation env (Some t) act s)) = m_cwd s).
Proof.
  intros (T & IT & (u & Eu)) Ha S. unfold operation. destruct (e_breaks env (m_ops s)) as [(w & g)|]; cbn.
  - split; [|discriminate]. intros q Oq. cbn. destruct (beyond t q) as [r|] eqn:E; [|now apply S].
    exfalso. apply beyond_spec in E. apply (Oq T IT). exists (u ++ r). now rewrite E, Eu, app_assoc.
  - split; [|auto]. intros q Oq. cbn. rewrite Ha; [now apply S|]. intros (r & E). apply (Oq T IT). exists (u ++ r). now rewrite E, Eu, app_assoc.
Qed.
Lemma in_B t : exists T, In T ts /\ below T (B ++ t).
Proof. exists B. split; [exact Bt|]. now exists t. Qed.
Lemma put_off fs t e q : ~ below t q -> put fs t e q = fs q.
Proof. intros H. unfold put. destruct (loc_eqb q t) eqn:E; [|reflexivity]. apply loc_eqb_eq in E as ->. exfalso. apply H. exists []. now rewrite app_nil_r. Qed.
Lemma copied_off fs d ns t q : ~ below t q -> copied fs d ns t q = fs q.
Proof. intros H. unfold copied. destruct (beyond t q) as [r|] eqn:E; [|reflexivity]. apply beyond_spec in E. exfalso. apply H. now exists r. Qed.
Lemma remove_off fs t q : ~ below t q -> remove fs t q = fs q.
Proof. intros H. unfold remove. destruct (beyond t q) as [r|] eqn:E; [|reflexivity]. apply beyond_spec in E. exfalso. apply H. now exists r. Qed.

Definition stc (C : contents) (cwd : list str) (s : machine) : Prop := st C s /\ m_cwd s = cwd.
Lemma put_step C cwd s t e : stc C cwd s ->
  safe (snd (operation env (Some (B ++ t)) (fun fs => put fs (B ++ t) e) s))
  /\ (fst (operation env (Some (B ++ t)) (fun fs => put fs (B ++ t) e) s) = Val tt -> stc (put_c C t e) cwd (snd (operation env (Some (B ++ t)) (fun fs => put fs (B ++ t) e) s))).
Proof.
  intros ((S & HC) & Hw).
  destruct (op_safe (B ++ t) (fun fs => put fs (B ++ t) e) s (in_B t) (fun q => put_off _ _ _ q) S) as (Sf & V).
  split; [exact Sf|]. intros E. destruct (V E) as (F & Cw). split; [split; [exact Sf|]|now rewrite Cw].
  intros r. rewrite F. unfold put, put_c. rewrite loc_eqb_prefix, HC. reflexivity.
Qed.
Lemma mkdir_in C cwd p b n : inside p (b ++ [n]) -> dirs C b -> ~ In $".." (b ++ [n]) -> C (b ++ [n]) = None ->
  triple (stc C cwd) (mkdir_p env p) (stc (put_c C (b ++ [n]) Directory) cwd).
Proof.
  intros I Hd Nd N s S. pose proof S as (S1 & _). unfold mkdir_p, isdir.
  destruct (at_in C s p b n S1 I Hd Nd) as (_ & H2). rewrite (H2 N). unfold mkdir. rewrite (place_in C s p b n S1 I Hd Nd).
  destruct S1 as (S2 & HC). rewrite HC, N. apply put_step, S.
Qed.
Lemma create_in C cwd p b n e : inside p (b ++ [n]) -> dirs C b -> ~ In $".." (b ++ [n]) ->
  triple (stc C cwd) (create env p e) (stc (put_c C (b ++ [n]) e) cwd).
Proof.
  intros I Hd Nd s S. pose proof S as (S1 & _). unfold create. rewrite (place_in C s p b n S1 I Hd Nd).
  destruct S1 as (S2 & HC). rewrite HC. destruct (C (b ++ [n])) as [[|x c|to]|]; try (apply put_step, S); cbn; (split; [exact S2|discriminate]).
Qed.
(** What is read does not change. *)
Lemma view_same s src r : independent fs0 ts src -> safe s -> view (m_fs s) [] src r = view fs0 [] src r.
Proof.
  intros In S. pose proof (In (m_fs s) S r) as H. destruct (view fs0 [] src r) as [e|] eqn:E.
  - apply view_spec, H, view_spec, E.
  - destruct (view (m_fs s) [] src r) as [e|] eqn:E2; [|reflexivity]. apply view_spec, H, view_spec in E2. congruence.
Qed.
Lemma cp_r_in C cwd p b n q src : inside p (b ++ [n]) -> dirs C b -> ~ In $".." (b ++ [n]) -> good q src -> independent fs0 ts src ->
  triple (stc C cwd) (cp_r env q p) (fun s => stc (copy_c C (b ++ [n]) (view fs0 [] src)) cwd s /\ view fs0 [] src [] = Some Directory /\ C (b ++ [n]) = None).
Proof.
  intros I Hd Nd Gq In s S. pose proof S as (S1 & Hw). pose proof S1 as (S2 & HC). unfold cp_r. rewrite (at_path_good s q src Gq).
  destruct (follow max_links (m_fs s) [] src) as [a|] eqn:F; [|cbn; split; [exact S2|discriminate]].
  destruct (dir_at (m_fs s) a) eqn:Da; [|cbn; split; [exact S2|discriminate]].
  rewrite (place_in C s p b n S1 I Hd Nd), HC. destruct (C (b ++ [n])) as [e|] eqn:Cn; [cbn; split; [exact S2|discriminate]|].
  destruct Gq as (Nq & Aq & _). rewrite Nq, Aq.
  destruct (op_safe (B ++ b ++ [n]) (fun fs => copied fs [] src (B ++ b ++ [n])) s (in_B _) (fun q => copied_off _ _ _ _ q) S2) as (Sf & V).
  split; [exact Sf|]. intros E. destruct (V E) as (Ff & Cw). split; [|split; [|exact eq_refl]].
  - split; [split; [exact Sf|]|now rewrite Cw]. intros r. rewrite Ff. unfold copied, copy_c. rewrite beyond_prefix.
    destruct (beyond (b ++ [n]) r) as [r'|]; [now apply view_same|apply HC].
  - rewrite <- (view_same s src [] In S2). unfold view. cbn [existsb]. rewrite app_nil_r, F. unfold entry_at. unfold dir_at in Da.
    destruct (is_nil a); [reflexivity|]. cbn in Da. destruct (m_fs s a) as [[| |]|]; try discriminate. reflexivity.
Qed.
Lemma file_at_view s p src x c : good p src -> file_at s p = Some (x, c) <-> view (m_fs s) [] src [] = Some (Regular x c).
Proof.
  intros G. unfold file_at, view. cbn [existsb]. rewrite (at_path_good s p src G), app_nil_r.
  destruct (follow max_links (m_fs s) [] src) as [t|]; [|split; discriminate].
  destruct (entry_at (m_fs s) t) as [[| |]|]; split; intros H; try discriminate; now injection H as -> ->.
Qed.

(** ** The steps of bundling *)
Definition none_c : contents := fun _ => None.
Definition closed (fs : filesystem) : Prop := forall d n e, fs (d ++ [n]) = Some e -> is_directory fs d.
Lemma closed_none fs t : closed fs -> t <> [] -> fs t = None -> forall r, fs (t ++ r) = None.
Proof.
  intros Cl Nt N r. induction r as [|x r IH] using rev_ind; [now rewrite app_nil_r|].
  destruct (fs (t ++ r ++ [x])) as [e|] eqn:E; [|reflexivity]. exfalso. rewrite app_assoc in E. apply Cl in E as [E|E]; [|congruence].
  destruct t; [contradiction|discriminate].
Qed.
Lemma B_nonroot : B <> [].
Proof. unfold B. destruct D; discriminate. Qed.
Lemma root_place s p : good p (W ++ [rel]) -> safe s -> place s p = Some B.
Proof. intros G S. destruct (safe_D s S) as (F & Di). exact (place_of s p W rel D G rel_down F Di). Qed.
Lemma root_step p cwd : good p (W ++ [rel]) -> closed fs0 ->
  triple (fun s => m_fs s = fs0 /\ m_cwd s = cwd) (seq (rm_f env p) (mkdir_p env p)) (stc (put_c none_c [] Directory) cwd).
Proof.
  intros G Cl. apply triple_seq with (Q := fun s => stc none_c cwd s \/ safe s /\ isdir s p = false /\ m_fs s B <> None).
  - intros s (F0 & Hw). assert (S : safe s) by (intros q _; now rewrite F0). unfold rm_f. destruct (isdir s p) eqn:Id.
    + rewrite (root_place s p G S). destruct (m_fs s B) as [[|x c|to]|] eqn:FB; try (cbn; split; [exact S|discriminate]).
      destruct (op_safe B (fun fs => remove fs B) s (ex_intro _ B (conj Bt (ex_intro _ [] (eq_sym (app_nil_r B))))) (fun q => remove_off _ _ q) S) as (Sf & V).
      split; [exact Sf|]. intros E. destruct (V E) as (Ff & Cw). left. split; [split; [exact Sf|]|now rewrite Cw].
      intros r. rewrite Ff. unfold remove. now rewrite beyond_app.
    + cbn. split; [exact S|]. intros _. destruct (m_fs s B) as [e|] eqn:FB; [right; auto; repeat split; auto; discriminate|].
      left. split; [split; [exact S|]|exact Hw]. intros r. apply closed_none; [now rewrite F0|exact B_nonroot|exact FB].
  - intros s [S|(S & Id & NB)].
    + pose proof S as ((S2 & HC) & Hw). destruct (safe_D s S2) as (F & Di). unfold mkdir_p, isdir. rewrite (at_path_good s p _ G).
      assert (FB : m_fs s B = None) by (rewrite <- (app_nil_r B); apply HC).
      destruct (follow_end (m_fs s) W D rel F Di rel_down) as (_ & H2). change (D ++ [rel]) with B in H2. rewrite (H2 FB).
      unfold mkdir. rewrite (root_place s p G S2), FB. pose proof (put_step none_c cwd s [] Directory S) as PS. rewrite app_nil_r in PS. exact PS.
    + unfold mkdir_p. rewrite Id. unfold mkdir. rewrite (root_place s p G S). destruct (m_fs s B); [|contradiction NB; reflexivity].
      cbn. split; [exact S|discriminate].
Qed.
Lemma cd_in C cwd p b : inside p b -> dirs C b -> ~ In $".." b -> triple (stc C cwd) (cd p) (stc C (B ++ b)).
Proof.
  intros I Hd Nd s (S & Hw). destruct (follow_dirs C s b S Hd Nd) as (F & Di). unfold cd. rewrite (at_path_good s p _ I), F.
  apply dir_at_spec in Di. rewrite Di. cbn. split; [apply S|]. intros _. split; [exact S|reflexivity].
Qed.
Lemma ln_in C b n to : dirs C b -> ~ In $".." b -> names n = [n] -> n <> $".." -> absolute n = false ->
  triple (stc C (B ++ b)) (ln_s env to n) (fun s => stc (put_c C (b ++ [n]) (Symlink to)) (B ++ b) s /\ C (b ++ [n]) = None).
Proof.
  intros Hd Nd Nn Nu An s S. pose proof S as (S1 & Hw). pose proof S1 as (S2 & HC). unfold ln_s, place. rewrite Nn, An, Hw. cbn [rev app].
  destruct (str_eqb n $"..") eqn:U; [apply str_eqb_eq in U; contradiction|]. rewrite follow_nil.
  destruct (follow_dirs C s b S1 Hd Nd) as (_ & Di). apply dir_at_spec in Di. rewrite Di, <- app_assoc, HC.
  destruct (C (b ++ [n])) as [e|] eqn:Cn; [cbn; split; [exact S2|discriminate]|].
  destruct (put_step C (B ++ b) s (b ++ [n]) (Symlink to) S) as (Sf & V). split; [exact Sf|]. intros E. split; [exact (V E)|reflexivity].
Qed.
Lemma script_in C cwd dir name p src b n : pjoin dir name = p -> good p src -> independent fs0 ts src ->
  inside (pjoin (bundle_bin_dir env) name) (b ++ [n]) -> dirs C b -> ~ In $".." (b ++ [n]) ->
  triple (stc C cwd) (install_script env dir name)
    (stc (match view fs0 [] src [] with Some (Regular x c) => put_c C (b ++ [n]) (Regular x c) | _ => C end) cwd).
Proof.
  intros Ep G In I Hd Nd s S. pose proof S as ((S2 & HC) & Hw). unfold install_script, isfile_, cp. rewrite Ep.
  destruct (file_at s p) as [(x, c)|] eqn:F.
  - apply (file_at_view s p src x c G) in F. rewrite (view_same s src [] In S2) in F. rewrite F. apply create_in; assumption.
  - destruct (view fs0 [] src []) as [[|x c|to]|] eqn:V; cbn; try (split; [exact S2|intros _; exact S]).
    rewrite <- (view_same s src [] In S2) in V. apply (file_at_view s p src x c G) in V. congruence.
Qed.

(** A licence is copied; [k] lines of the other. *)
Lemma exists_shows s p src e : good p src -> exists_ s p = false -> view (m_fs s) [] src [] = Some e -> False.
Proof.
  intros G. unfold exists_, view. cbn [existsb]. rewrite (at_path_good s p src G), app_nil_r.
  destruct (follow max_links (m_fs s) [] src); discriminate.
Qed.
Lemma licenses_in C cwd llvm_root own first second :
  good (pjoin (root_dir env) $"LICENSE") own -> good (pjoin llvm_root $"LICENSE.TXT") first ->
  good (pjoin (source_clang_dir env) $"LICENSE.TXT") second ->
  independent fs0 ts own -> independent fs0 ts first -> independent fs0 ts second ->
  inside (pjoin (bundle_root_dir env) $"LICENSE") [$"LICENSE"] -> dirs C [] ->
  triple (stc C cwd) (install_licenses env llvm_root)
    (fun s => exists x t l, shows fs0 own [] (Regular x t)
       /\ stc (put_c (put_c C [$"LICENSE"] (Regular false [])) [$"LICENSE"] (Regular false (t ++ l))) cwd s
       /\ (l = [] /\ (forall e, ~ shows fs0 first [] e) /\ (forall e, ~ shows fs0 second [] e)
           \/ exists y c a, l = NL :: a /\ head_lines 44 c a
              /\ (shows fs0 first [] (Regular y c) \/ (forall e, ~ shows fs0 first [] e) /\ shows fs0 second [] (Regular y c)))).
Proof.
  intros Go G1 G2 Io I1 I2 I Hd.
  assert (Nd : ~ In $".." ([] ++ [$"LICENSE"])) by (intros [H|[]]; discriminate H).
  set (C1 := put_c C [$"LICENSE"] (Regular false [])).
  assert (Hd1 : dirs C1 []). { intros a r E. symmetry in E. apply app_eq_nil in E as (-> & _). unfold C1, put_c. cbn. apply (Hd [] []). reflexivity. }
  apply triple_seq with (Q := stc C1 cwd). { exact (create_in C cwd _ [] _ _ I Hd Nd). }
  intros s S. pose proof S as ((S2 & HC) & Hw). unfold bind, get.
  assert (Vs : forall src r, independent fs0 ts src -> view (m_fs s) [] src r = view fs0 [] src r) by (intros; now apply view_same).
  unfold license_of, ret, throw.
  destruct (file_at s (pjoin (root_dir env) $"LICENSE")) as [(x, t)|] eqn:Fo; [|cbn [fst snd]; split; [exact S2|intros X; discriminate X]].
  apply (file_at_view s _ own x t Go) in Fo. rewrite Vs in Fo by assumption. apply view_spec in Fo.
  set (f1 := pjoin llvm_root $"LICENSE.TXT") in *. set (f2 := pjoin (source_clang_dir env) $"LICENSE.TXT") in *.
  assert (Fin : forall l, triple (stc C1 cwd) (create env (pjoin (bundle_root_dir env) $"LICENSE") (Regular false (t ++ l)))
                           (stc (put_c C1 [$"LICENSE"] (Regular false (t ++ l))) cwd)) by (intros l; exact (create_in C1 cwd _ [] _ _ I Hd1 Nd)).
  assert (Done : forall l s', stc C1 cwd s' ->
    (l = [] /\ (forall e, ~ shows fs0 first [] e) /\ (forall e, ~ shows fs0 second [] e)
           \/ exists y c a, l = NL :: a /\ head_lines 44 c a
              /\ (shows fs0 first [] (Regular y c) \/ (forall e, ~ shows fs0 first [] e) /\ shows fs0 second [] (Regular y c))) ->
    safe (snd (create env (pjoin (bundle_root_dir env) $"LICENSE") (Regular false (t ++ l)) s'))
    /\ (fst (create env (pjoin (bundle_root_dir env) $"LICENSE") (Regular false (t ++ l)) s') = Val tt ->
        exists x t0 l0, shows fs0 own [] (Regular x t0)
       /\ stc (put_c C1 [$"LICENSE"] (Regular false (t0 ++ l0))) cwd (snd (create env (pjoin (bundle_root_dir env) $"LICENSE") (Regular false (t ++ l)) s'))
       /\ (l0 = [] /\ (forall e, ~ shows fs0 first [] e) /\ (forall e, ~ shows fs0 second [] e)
           \/ exists y c a, l0 = NL :: a /\ head_lines 44 c a
              /\ (shows fs0 first [] (Regular y c) \/ (forall e, ~ shows fs0 first [] e) /\ shows fs0 second [] (Regular y c))))).
  { intros l s' S' Hl. destruct (Fin l s' S') as (Sf & V). split; [exact Sf|]. intros E. exists x, t, l. auto. }
  assert (No : forall p src, good p src -> independent fs0 ts src -> exists_ s p = false -> forall e, ~ shows fs0 src [] e).
  { intros p src G Id Ex e H. apply view_spec in H. rewrite <- Vs in H by assumption. exact (exists_shows s p src e G Ex H). }
  destruct (exists_ s f1) eqn:E1.
  - rewrite E1. destruct (file_at s f1) as [(y, c)|] eqn:F1; [|cbn [fst snd]; split; [exact S2|intros X; discriminate X]].
    apply (file_at_view s _ first y c G1) in F1. rewrite Vs in F1 by assumption. apply view_spec in F1.
    apply Done; [exact S|]. right. exists y, c, (concat (firstn 44 (lines_of c))). split; [reflexivity|]. split; [apply head_lines_of|auto].
  - destruct (exists_ s f2) eqn:E2.
    + destruct (file_at s f2) as [(y, c)|] eqn:F2; [|cbn [fst snd]; split; [exact S2|intros X; discriminate X]].
      apply (file_at_view s _ second y c G2) in F2. rewrite Vs in F2 by assumption. apply view_spec in F2.
      apply Done; [exact S|]. right. exists y, c, (concat (firstn 44 (lines_of c))). split; [reflexivity|]. split; [apply head_lines_of|].
      right. split; [exact (No _ _ G1 I1 E1)|exact F2].
    + apply Done; [exact S|]. left. split; [reflexivity|]. split; [exact (No _ _ G1 I1 E1)|exact (No _ _ G2 I2 E2)].
Qed.
End Run.

(** ** The whole script *)
Definition developer (env : surroundings) : str := $"26.02.dev." ++ match e_git env with Some h => h | None => $"src" end.
Definition kind_of (env : surroundings) (args : bundleargs) : kind :=
  {| k_root := names (e_root env); k_llvm := names (ba_llvm_root args); k_docgen := ba_docgen args;
     k_dev := if ba_release args then None else Some (developer env);
     k_mac := is_darwin env; k_intel := negb (is_aarch64_or_arm64 env) |}.
Definition start (fs : filesystem) (cwd : list str) : machine := {| m_fs := fs; m_cwd := cwd; m_ops := 0 |}.
(** The checkout is at an absolute path whose build directory is [D], LLVM at another; nothing that
    is read lies behind the places [ts]. *)
Definition ready (env : surroundings) (args : bundleargs) (fs : filesystem) (ts : list (list str)) (D : list str) : Prop :=
  absolute (e_root env) = true /\ absolute (ba_llvm_root args) = true
  /\ (forall h, e_git env = Some h -> ~ In "/"%char h)
  /\ closed fs
  /\ way fs ts (built (kind_of env args) []) D
  /\ (forall src, In src (sources (kind_of env args)) -> independent fs ts src).

Section Body.
Variable env : surroundings.
Variable args : bundleargs.
Variable fs0 : filesystem.
Variable ts : list (list str).
Variable D : list str.
Let k := kind_of env args.
Let B := D ++ [$"oclint-release"].
Hypothesis R : ready env args fs0 ts D.
Hypothesis Bt : In B ts.
Let W := built k [].

Lemma nonempty p : absolute p = true -> p <> [].
Proof. destruct p; discriminate. Qed.
Lemma g_root : good (e_root env) (k_root k).
Proof. destruct R as (H & _). repeat split; [exact H|now apply nonempty]. Qed.
Lemma g_llvm : good (ba_llvm_root args) (k_llvm k).
Proof. destruct R as (_ & H & _). repeat split; [exact H|now apply nonempty]. Qed.
Lemma g_build : good (build_root env) W.
Proof. apply good_pjoin; [exact g_root|reflexivity|reflexivity]. Qed.
Lemma g_module m n : absolute m = false -> names ($"oclint-" ++ m) = n -> good (oclint_module_build_dir env m) (W ++ n).
Proof. intros A E. apply good_pjoin; [exact g_build|reflexivity|exact E]. Qed.
Lemma g_bundle : good (bundle_root_dir env) (W ++ [$"oclint-release"]).
Proof. apply (g_module $"release"); reflexivity. Qed.
Lemma rel_ok : $"oclint-release" <> $"..".
Proof. discriminate. Qed.

Lemma good_eq p a b : good p a -> a = b -> good p b.
Proof. intros H <-. exact H. Qed.
Ltac path := unfold inside; eapply good_eq; [repeat (apply good_pjoin; [|reflexivity|reflexivity]); first [exact g_bundle|exact g_root|exact g_llvm|apply g_module; reflexivity]|unfold W, built; rewrite <- ?app_assoc; reflexivity].
Lemma i_lib : inside W $"oclint-release" (bundle_lib_dir env) [$"lib"]. Proof. path. Qed.
Lemma i_oclint : inside W $"oclint-release" (bundle_lib_oclint_dir env) [$"lib"; $"oclint"]. Proof. path. Qed.
Lemma i_licence : inside W $"oclint-release" (pjoin (bundle_root_dir env) $"LICENSE") [$"LICENSE"]. Proof. path. Qed.
Lemma i_bin : inside W $"oclint-release" (bundle_bin_dir env) [$"bin"]. Proof. path. Qed.
Lemma i_rules : inside W $"oclint-release" (pjoin (bundle_lib_oclint_dir env) $"rules") [$"lib"; $"oclint"; $"rules"]. Proof. path. Qed.
Lemma i_reporters : inside W $"oclint-release" (pjoin (bundle_lib_oclint_dir env) $"reporters") [$"lib"; $"oclint"; $"reporters"]. Proof. path. Qed.
Lemma i_clang : inside W $"oclint-release" (pjoin (bundle_lib_dir env) $"clang") [$"lib"; $"clang"]. Proof. path. Qed.
Lemma i_include : inside W $"oclint-release" (bundle_include_dir env) [$"include"]. Proof. path. Qed.
Lemma i_cxx : inside W $"oclint-release" (pjoin (bundle_include_dir env) $"c++") [$"include"; $"c++"]. Proof. path. Qed.
Lemma i_script n : absolute n = false -> names n = [n] -> inside W $"oclint-release" (pjoin (bundle_bin_dir env) n) [$"bin"; n].
Proof.
  intros A N. unfold inside. eapply good_eq; [apply good_pjoin; [exact i_bin|exact A|exact N]|]. now rewrite <- app_assoc.
Qed.
Lemma s_driver : good (pjoin (oclint_module_build_dir env $"driver") $"bin") (built k [$"oclint-driver"; $"bin"]). Proof. path. Qed.
Lemma s_rules : good (pjoin (oclint_module_build_dir env $"rules") $"rules.dl") (built k [$"oclint-rules"; $"rules.dl"]). Proof. path. Qed.
Lemma s_reporters : good (pjoin (oclint_module_build_dir env $"reporters") $"reporters.dl") (built k [$"oclint-reporters"; $"reporters.dl"]). Proof. path. Qed.
Lemma s_clang : good (pjoin (pjoin (ba_llvm_root args) $"lib") $"clang") (k_llvm k ++ [$"lib"; $"clang"]). Proof. path. Qed.
Lemma s_cxx : good (pjoin (pjoin (ba_llvm_root args) $"include") $"c++") (k_llvm k ++ [$"include"; $"c++"]). Proof. path. Qed.
Lemma s_own : good (pjoin (root_dir env) $"LICENSE") (k_root k ++ [$"LICENSE"]). Proof. path. Qed.
Lemma s_first : good (pjoin (ba_llvm_root args) $"LICENSE.TXT") (k_llvm k ++ [$"LICENSE.TXT"]). Proof. path. Qed.
Lemma s_second : good (pjoin (source_clang_dir env) $"LICENSE.TXT") (k_root k ++ [$"llvm"; $"LICENSE.TXT"]). Proof. path. Qed.
Lemma s_jsondb : good (pjoin (json_compilation_database_dir env) $"oclint-json-compilation-database") (k_root k ++ [$"oclint-json-compilation-database"; $"oclint-json-compilation-database"]). Proof. path. Qed.
Lemma s_xcodebuild : good (pjoin (xcodebuild_dir env) $"oclint-xcodebuild") (k_root k ++ [$"oclint-xcodebuild"; $"oclint-xcodebuild"]). Proof. path. Qed.
Lemma indep src : In src (sources k) -> independent fs0 ts src.
Proof. destruct R as (_ & _ & _ & _ & _ & H). apply H. Qed.
Lemma the_way : way fs0 ts W D.
Proof. destruct R as (_ & _ & _ & _ & H & _). exact H. Qed.

(** The contents after each step. *)
Definition v_bin := view fs0 [] (built k [$"oclint-driver"; $"bin"]).
Definition v_rules := view fs0 [] (built k [$"oclint-rules"; $"rules.dl"]).
Definition v_reporters := view fs0 [] (built k [$"oclint-reporters"; $"reporters.dl"]).
Definition v_clang := view fs0 [] (k_llvm k ++ [$"lib"; $"clang"]).
Definition v_cxx := view fs0 [] (k_llvm k ++ [$"include"; $"c++"]).
Definition v_json := view fs0 [] (k_root k ++ [$"oclint-json-compilation-database"; $"oclint-json-compilation-database"]) [].
Definition v_xcode := view fs0 [] (k_root k ++ [$"oclint-xcodebuild"; $"oclint-xcodebuild"]) [].
Definition link : entry := Symlink $"oclint-26.02".
Definition C2 : contents := put_c (put_c (put_c none_c [] Directory) [$"lib"] Directory) [$"lib"; $"oclint"] Directory.
Definition C3 (t : str) : contents := put_c (put_c C2 [$"LICENSE"] (Regular false [])) [$"LICENSE"] (Regular false t).
Definition C4 t : contents := copy_c (C3 t) [$"bin"] v_bin.
Definition C5 t : contents := put_c (C4 t) [$"bin"; $"oclint"] link.
Definition C6 t : contents := if ba_release args then C5 t else put_c (C5 t) [$"bin"; $"oclint-" ++ developer env] link.
Definition C7 t : contents := copy_c (C6 t) [$"lib"; $"oclint"; $"rules"] v_rules.
Definition C8 t : contents := copy_c (C7 t) [$"lib"; $"oclint"; $"reporters"] v_reporters.
Definition C9 t : contents := copy_c (C8 t) [$"lib"; $"clang"] v_clang.
Definition add_script (C : contents) (n : str) (v : option entry) : contents :=
  match v with Some (Regular x c) => put_c C [$"bin"; n] (Regular x c) | _ => C end.
Definition C10 t : contents := add_script (C9 t) $"oclint-json-compilation-database" v_json.
Definition C11 t : contents := if is_darwin env then add_script (C10 t) $"oclint-xcodebuild" v_xcode else C10 t.
Definition C12 t : contents :=
  if is_darwin env && negb (is_aarch64_or_arm64 env)
  then copy_c (put_c (C11 t) [$"include"] Directory) [$"include"; $"c++"] v_cxx else C11 t.
Definition C13 t : contents := if ba_docgen args then C7 t else C12 t.

(** What is known besides. *)
Definition licence_text (t : str) : Prop :=
  exists x own l, shows fs0 (k_root k ++ [$"LICENSE"]) [] (Regular x own) /\ t = own ++ l
  /\ (l = [] /\ llvm_licence fs0 k None \/ exists c a, l = NL :: a /\ head_lines 44 c a /\ llvm_licence fs0 k (Some c)).
Definition known (t : str) : Prop :=
  licence_text t /\ v_bin [$"oclint"] = None /\ (ba_release args = false -> v_bin [$"oclint-" ++ developer env] = None)
  /\ v_bin [] = Some Directory.

Definition stb (C : contents) (cwd : list str) (s : machine) : Prop := stc fs0 ts D $"oclint-release" C cwd s.
Notation tri := (triple fs0 ts).
Ltac nodots := let H := fresh in intros H; cbn in H; repeat (destruct H as [H|H]; [discriminate H|]); exact H.
Lemma setup_ok cwd : tri (fun s => m_fs s = fs0 /\ m_cwd s = cwd) (setup_release_dir env) (stb C2 cwd).
Proof.
  unfold setup_release_dir.
  assert (Assoc : forall a b c : M unit, forall P Q, tri P (seq (seq a b) c) Q -> tri P (seq a (seq b c)) Q).
  { intros a b c P Q H s Ps. specialize (H s Ps). unfold seq, bind in *. destruct (a s) as ([u|w|] & s1); exact H. }
  apply Assoc. destruct R as (_ & _ & _ & Cl & _).
  eapply triple_seq; [exact (root_step env fs0 ts D W $"oclint-release" rel_ok the_way Bt _ cwd g_bundle Cl)|].
  eapply triple_seq.
  - apply (mkdir_in env fs0 ts D W $"oclint-release" rel_ok the_way Bt (put_c none_c [] Directory) cwd _ [] $"lib" i_lib); [now apply dirs_0|nodots|reflexivity].
  - apply (mkdir_in env fs0 ts D W $"oclint-release" rel_ok the_way Bt _ cwd _ [$"lib"] $"oclint" i_oclint); [now apply dirs_1|nodots|reflexivity].
Qed.
Lemma licences_ok cwd : tri (stb C2 cwd) (install_licenses env (ba_llvm_root args)) (fun s => exists t, licence_text t /\ stb (C3 t) cwd s).
Proof.
  eapply triple_weaken; [apply (licenses_in env fs0 ts D W $"oclint-release" rel_ok the_way Bt C2 cwd _ _ _ _ s_own s_first s_second)| |].
  - apply indep. now left.
  - apply indep. right. now left.
  - apply indep. do 2 right. now left.
  - exact i_licence.
  - now apply dirs_0.
  - intros s H. exact H.
  - intros s (x & t & l & Ho & Hs & Hl). exists (t ++ l). split; [|exact Hs]. exists x, t, l. split; [exact Ho|]. split; [reflexivity|].
    destruct Hl as [(-> & H1 & H2)|(y & c & a & -> & Hh & [H|(H1 & H2)])].
    + left. split; [reflexivity|]. now apply ll_none.
    + right. exists c, a. repeat split; auto. eapply ll_installed, H.
    + right. exists c, a. repeat split; auto. eapply ll_sources; eauto.
Qed.
Lemma stb_safe C cwd s : stb C cwd s -> safe fs0 ts s.
Proof. intros ((H & _) & _). exact H. Qed.
Lemma dev_names : names ($"oclint-" ++ developer env) = [$"oclint-" ++ developer env].
Proof.
  apply names_plain; [reflexivity|]. destruct R as (_ & _ & Hg & _). unfold developer. intros I.
  apply in_app_or in I as [I|I]; [cbn in I; repeat (destruct I as [I|I]; [discriminate I|]); exact I|].
  apply in_app_or in I as [I|I]; [cbn in I; repeat (destruct I as [I|I]; [discriminate I|]); exact I|].
  destruct (e_git env) as [h|]; [exact (Hg h eq_refl I)|cbn in I; repeat (destruct I as [I|I]; [discriminate I|]); exact I].
Qed.
Lemma binary_ok t cwd : tri (fun s => licence_text t /\ stb (C3 t) cwd s) (install_binary env (ba_release args))
  (fun s => known t /\ stb (C6 t) (B ++ [$"bin"]) s).
Proof.
  unfold install_binary.
  eapply triple_seq with (Q := fun s => (licence_text t /\ v_bin [] = Some Directory) /\ stb (C4 t) cwd s).
  { intros s (L & S). destruct (cp_r_in env fs0 ts D W $"oclint-release" rel_ok the_way Bt (C3 t) cwd _ [] $"bin" _ _ i_bin (dirs_0 (C3 t) eq_refl) ltac:(nodots) s_driver
      (indep _ (or_intror (or_intror (or_intror (or_introl eq_refl))))) s S) as (Sf & V). split; [exact Sf|]. intros E. destruct (V E) as (H1 & H2 & _). auto. }
  assert (P4 : v_bin [] = Some Directory -> dirs (C4 t) [$"bin"]) by (intros H; apply dirs_1; [reflexivity|exact H]).
  eapply triple_seq with (Q := fun s => (licence_text t /\ v_bin [] = Some Directory) /\ stb (C4 t) (B ++ [$"bin"]) s).
  { intros s ((L & Vb) & S). destruct (cd_in fs0 ts D W $"oclint-release" rel_ok the_way Bt (C4 t) cwd _ [$"bin"] i_bin (P4 Vb) ltac:(nodots) s S) as (Sf & V). split; [exact Sf|]. intros E. split; [auto|exact (V E)]. }
  eapply triple_seq with (Q := fun s => (licence_text t /\ v_bin [] = Some Directory /\ v_bin [$"oclint"] = None) /\ stb (C5 t) (B ++ [$"bin"]) s).
  { intros s ((L & Vb) & S).
    destruct (ln_in env fs0 ts D W $"oclint-release" rel_ok the_way Bt (C4 t) [$"bin"] $"oclint" ($"oclint-" ++ oclint_version) (P4 Vb) ltac:(nodots) eq_refl ltac:(discriminate) eq_refl s S) as (Sf & V).
    split; [exact Sf|]. intros E. destruct (V E) as (H1 & H2). auto. }
  intros s ((L & Vb & Vo) & S). unfold when, C6, known. destruct (ba_release args) eqn:Rl; cbn [negb].
  - cbn. split; [exact (stb_safe _ _ _ S)|]. intros _. split; [split; [exact L|split; [exact Vo|split; [discriminate|exact Vb]]]|exact S].
  - destruct (ln_in env fs0 ts D W $"oclint-release" rel_ok the_way Bt (C5 t) [$"bin"] ($"oclint-" ++ developer env) ($"oclint-" ++ oclint_version)
      (dirs_1 (C5 t) $"bin" eq_refl Vb) ltac:(nodots) dev_names ltac:(discriminate) eq_refl s S) as (Sf & V).
    split; [exact Sf|]. intros E. destruct (V E) as (H1 & H2). split; [|exact H1]. split; [exact L|split; [exact Vo|split; [intros _; exact H2|exact Vb]]].
Qed.

Lemma C6_lib t b : C6 t ($"lib" :: b) = C2 ($"lib" :: b).
Proof. unfold C6. destruct (ba_release args); reflexivity. Qed.
Lemma C6_dir t : C6 t [] = Some Directory.
Proof. unfold C6. destruct (ba_release args); reflexivity. Qed.
Lemma C6_bin t : C6 t [$"bin"] = v_bin [].
Proof. unfold C6. destruct (ba_release args); reflexivity. Qed.
Definition here : list str := B ++ [$"bin"].
Lemma rules_ok t : tri (fun s => known t /\ stb (C6 t) here s) (install_rules env) (fun s => known t /\ stb (C7 t) here s).
Proof.
  intros s (K & S). destruct (cp_r_in env fs0 ts D W $"oclint-release" rel_ok the_way Bt (C6 t) here _ [$"lib"; $"oclint"] $"rules" _ _ i_rules
    (dirs_2 (C6 t) $"lib" $"oclint" (C6_dir t) (C6_lib t []) (C6_lib t [$"oclint"])) ltac:(nodots) s_rules
      (indep _ (or_intror (or_intror (or_intror (or_intror (or_introl eq_refl)))))) s S) as (Sf & V). split; [exact Sf|]. intros E. destruct (V E) as (H1 & _). auto.
Qed.
Lemma reporters_ok t : tri (fun s => known t /\ stb (C7 t) here s) (install_reporters env) (fun s => known t /\ stb (C8 t) here s).
Proof.
  intros s (K & S). destruct (cp_r_in env fs0 ts D W $"oclint-release" rel_ok the_way Bt (C7 t) here _ [$"lib"; $"oclint"] $"reporters" _ _ i_reporters
    (dirs_2 (C7 t) $"lib" $"oclint" (C6_dir t) (C6_lib t []) (C6_lib t [$"oclint"])) ltac:(nodots) s_reporters
      (indep _ (or_intror (or_intror (or_intror (or_intror (or_intror (or_introl eq_refl))))))) s S) as (Sf & V). split; [exact Sf|]. intros E. destruct (V E) as (H1 & _). auto.
Qed.
Lemma clang_ok t : tri (fun s => known t /\ stb (C8 t) here s) (install_clang_headers env (ba_llvm_root args)) (fun s => known t /\ stb (C9 t) here s).
Proof.
  intros s (K & S). destruct (cp_r_in env fs0 ts D W $"oclint-release" rel_ok the_way Bt (C8 t) here _ [$"lib"] $"clang" _ _ i_clang
    (dirs_1 (C8 t) $"lib" (C6_dir t) (C6_lib t [])) ltac:(nodots) s_clang
      (indep _ (or_intror (or_intror (or_intror (or_intror (or_intror (or_intror (or_introl eq_refl)))))))) s S) as (Sf & V). split; [exact Sf|]. intros E. destruct (V E) as (H1 & _). auto.
Qed.
Lemma C9_bin t : known t -> dirs (C9 t) [$"bin"].
Proof. intros (_ & _ & _ & Vb). apply dirs_1; [exact (C6_dir t)|]. etransitivity; [exact (C6_bin t)|exact Vb]. Qed.
Lemma json_ok t : tri (fun s => known t /\ stb (C9 t) here s) (install_json_compilation_database env) (fun s => known t /\ stb (C10 t) here s).
Proof.
  intros s (K & S). destruct (script_in env fs0 ts D W $"oclint-release" rel_ok the_way Bt (C9 t) here _ _ _ _ [$"bin"] $"oclint-json-compilation-database"
    eq_refl s_jsondb (indep _ (or_intror (or_intror (or_intror (or_intror (or_intror (or_intror (or_intror (or_intror (or_introl eq_refl)))))))))) (i_script $"oclint-json-compilation-database" eq_refl eq_refl)
    (C9_bin t K) ltac:(nodots) s S) as (Sf & V). split; [exact Sf|]. intros E. split; [exact K|exact (V E)].
Qed.
Lemma add_script_other C n v r : (forall x, r <> [$"bin"; x]) -> add_script C n v r = C r.
Proof.
  intros H. unfold add_script. destruct v as [[| |]|]; try reflexivity. unfold put_c. destruct (loc_eqb r [$"bin"; n]) eqn:E; [|reflexivity].
  apply loc_eqb_eq in E. destruct (H n E).
Qed.
Lemma C10_dirs t : known t -> dirs (C10 t) [$"bin"].
Proof.
  intros K. pose proof (C9_bin t K) as H. unfold C10. apply dirs_1; rewrite add_script_other by (intros x E; discriminate E).
  - exact (H [] _ eq_refl).
  - exact (H [$"bin"] [] eq_refl).
Qed.
Lemma xcode_ok t : is_darwin env = true -> tri (fun s => known t /\ stb (C10 t) here s) (install_xcodebuild env) (fun s => known t /\ stb (C11 t) here s).
Proof.
  intros Da s (K & S). unfold install_xcodebuild, C11. rewrite Da. cbn [when].
  destruct (script_in env fs0 ts D W $"oclint-release" rel_ok the_way Bt (C10 t) here _ _ _ _ [$"bin"] $"oclint-xcodebuild"
    eq_refl s_xcodebuild (indep _ (or_intror (or_intror (or_intror (or_intror (or_intror (or_intror (or_intror (or_intror (or_intror (or_introl eq_refl))))))))))) (i_script $"oclint-xcodebuild" eq_refl eq_refl)
    (C10_dirs t K) ltac:(nodots) s S) as (Sf & V). split; [exact Sf|]. intros E. split; [exact K|exact (V E)].
Qed.
Lemma C11_other t r : (forall x, r <> [$"bin"; x]) -> C11 t r = C9 t r.
Proof.
  intros H. unfold C11, C10. destruct (is_darwin env); now rewrite ?add_script_other by exact H.
Qed.
Lemma C9_include t b : C9 t ($"include" :: b) = None.
Proof. unfold C9, C8, C7, C6. unfold copy_c. cbn [beyond]. destruct (ba_release args); reflexivity. Qed.
Lemma cxx_ok t : is_darwin env = true -> tri (fun s => known t /\ stb (C11 t) here s) (install_cpp_headers env (ba_llvm_root args)) (fun s => known t /\ stb (C12 t) here s).
Proof.
  intros Da. unfold install_cpp_headers, C12. rewrite Da. cbn [andb]. destruct (negb (is_aarch64_or_arm64 env)); cbn [when].
  2:{ intros s (K & S). cbn. split; [exact (stb_safe _ _ _ S)|auto]. }
  rewrite (is_nil_false (ba_llvm_root args)) by (apply nonempty, R).
  assert (D11 : C11 t [] = Some Directory) by (rewrite C11_other by (intros x E; discriminate E); exact (C6_dir t)).
  assert (I11 : C11 t [$"include"] = None) by (rewrite C11_other by (intros x E; discriminate E); apply C9_include).
  eapply triple_seq with (Q := fun s => known t /\ stb (put_c (C11 t) [$"include"] Directory) here s).
  - intros s (K & S). destruct (mkdir_in env fs0 ts D W $"oclint-release" rel_ok the_way Bt (C11 t) here _ [] $"include" i_include (dirs_0 _ D11) ltac:(nodots)
      I11 s S) as (Sf & V). split; [exact Sf|]. intros E. split; [exact K|exact (V E)].
  - intros s (K & S). destruct (cp_r_in env fs0 ts D W $"oclint-release" rel_ok the_way Bt (put_c (C11 t) [$"include"] Directory) here _ [$"include"] $"c++" _ _ i_cxx
    (dirs_1 (put_c (C11 t) [$"include"] Directory) $"include" D11 eq_refl) ltac:(nodots) s_cxx
      (indep _ (or_intror (or_intror (or_intror (or_intror (or_intror (or_intror (or_intror (or_introl eq_refl))))))))) s S) as (Sf & V). split; [exact Sf|]. intros E. destruct (V E) as (H1 & _). auto.
Qed.
Lemma know_safe C t cwd s : known t /\ stb C cwd s -> safe fs0 ts s.
Proof. intros (_ & S). exact (stb_safe _ _ _ S). Qed.
Definition body : M unit :=
  seq (setup_release_dir env) (seq (install_licenses env (ba_llvm_root args)) (seq (install_binary env (ba_release args)) (seq (install_rules env)
  (when (negb (ba_docgen args))
    (seq (install_reporters env) (seq (install_clang_headers env (ba_llvm_root args)) (seq (install_json_compilation_database env)
     (when (is_darwin env) (seq (install_xcodebuild env) (install_cpp_headers env (ba_llvm_root args))))))))))).
Lemma body_ok cwd : tri (fun s => m_fs s = fs0 /\ m_cwd s = cwd) body (fun s => exists t, known t /\ stb (C13 t) here s).
Proof.
  unfold body. eapply triple_seq; [apply setup_ok|]. eapply triple_seq; [apply licences_ok|].
  assert (Ex : forall m Q, (forall t, tri (fun s => licence_text t /\ stb (C3 t) cwd s) m Q) -> tri (fun s => exists t, licence_text t /\ stb (C3 t) cwd s) m Q).
  { intros m Q H s (t & Ht). exact (H t s Ht). }
  apply Ex. intros t. eapply triple_seq; [apply binary_ok|]. eapply triple_seq; [apply rules_ok|].
  eapply triple_weaken with (Q := fun s => known t /\ stb (C13 t) here s); [|intros s H; exact H|intros s H; exists t; exact H].
  unfold C13. apply triple_when; [intros s; apply know_safe| |].
  - intros Dg. apply Bool.negb_true_iff in Dg. rewrite Dg. eapply triple_seq; [apply reporters_ok|]. eapply triple_seq; [apply clang_ok|]. eapply triple_seq; [apply json_ok|].
    apply triple_when; [intros s; apply know_safe| |].
    + intros Da. eapply triple_seq; [apply xcode_ok, Da|apply cxx_ok, Da].
    + intros Da s (K & S). split; [exact K|]. unfold C12, C11. rewrite Da. exact S.
  - intros Dg s H. apply Bool.negb_false_iff in Dg. rewrite Dg. exact H.
Qed.

(** ** The contents are what belongs there *)
Lemma shows_fun src r e e' : shows fs0 src r e -> shows fs0 src r e' -> e = e'.
Proof. intros H H'. apply view_spec in H, H'. congruence. Qed.
Lemma licence_fun t x own : licence_text t -> shows fs0 (k_root k ++ [$"LICENSE"]) [] (Regular x own) ->
  (llvm_licence fs0 k None -> t = own) /\ (forall c a, llvm_licence fs0 k (Some c) -> head_lines 44 c a -> t = own ++ NL :: a).
Proof.
  intros (y & own' & l & Ho & -> & Hl) Ho'. assert (own' = own) as -> by (pose proof (shows_fun _ _ _ _ Ho Ho') as E; congruence).
  assert (Ex : forall c, llvm_licence fs0 k None -> llvm_licence fs0 k (Some c) -> False).
  { intros c H H'. inversion H as [| |N1 N2]; inversion H' as [z d S1|z d N3 S1|]; subst; [exact (N1 _ S1)|exact (N2 _ S1)]. }
  assert (Un : forall c d, llvm_licence fs0 k (Some c) -> llvm_licence fs0 k (Some d) -> c = d).
  { intros c d H H'. inversion H as [z ? S1|z ? N3 S1|]; inversion H' as [z' ? S2|z' ? N4 S2|]; subst.
    - pose proof (shows_fun _ _ _ _ S1 S2). congruence.
    - destruct (N4 _ S1).
    - destruct (N3 _ S2).
    - pose proof (shows_fun _ _ _ _ S1 S2). congruence. }
  destruct Hl as [(-> & Hn)|(c & a & -> & Hh & Hs)]; split.
  - intros _. apply app_nil_r.
  - intros c a Hs. destruct (Ex c Hn Hs).
  - intros Hn. destruct (Ex c Hn Hs).
  - intros c' a' Hs' Hh'. rewrite (Un c c' Hs Hs') in Hh. now rewrite (head_lines_det _ _ _ _ Hh Hh').
Qed.
Lemma licence_belongs t : licence_text t -> belongs fs0 k [$"LICENSE"] (Regular false t).
Proof.
  intros (x & own & l & Ho & -> & [(-> & Hn)|(c & a & -> & Hh & Hs)]).
  - rewrite app_nil_r. eapply b_licence; eauto.
  - eapply b_licences; eauto.
Qed.
Lemma put_case (C : contents) t e r v : put_c C t e r = Some v -> r = t /\ v = e \/ r <> t /\ C r = Some v.
Proof.
  unfold put_c. destruct (loc_eqb r t) eqn:E; [apply loc_eqb_eq in E; intros [= <-]; auto|].
  intros H. right. split; [|exact H]. intros ->. assert (loc_eqb t t = true) by now apply loc_eqb_eq. congruence.
Qed.
Lemma copy_case (C : contents) t w r v : copy_c C t w r = Some v -> (exists r', r = t ++ r' /\ w r' = Some v) \/ C r = Some v.
Proof. unfold copy_c. destruct (beyond t r) as [r'|] eqn:E; [apply beyond_spec in E; left; eauto|auto]. Qed.
Lemma script_case (C : contents) n w r v : add_script C n w r = Some v ->
  r = [$"bin"; n] /\ w = Some v /\ (exists x c, v = Regular x c) \/ (forall x c, w = Some (Regular x c) -> r <> [$"bin"; n]) /\ C r = Some v.
Proof.
  unfold add_script. destruct w as [[|x c|to]|]; try (intros H; right; split; [discriminate|exact H]).
  intros H. apply put_case in H as [(-> & ->)|(Ne & H)]; [left; eauto|right; auto].
Qed.
Lemma C6_belongs t r e : known t -> C6 t r = Some e -> (forall n e', script fs0 k n e' -> r <> [$"bin"; n]) -> belongs fs0 k r e.
Proof.
  intros (Lt & _ & _) H Hs.
  assert (H5 : C5 t r = Some e -> belongs fs0 k r e).
  { intros H5. unfold C5 in H5. apply put_case in H5 as [(-> & ->)|(_ & H5)]; [apply b_name|].
    apply copy_case in H5 as [(r' & -> & Hv)|H5].
    { apply view_spec in Hv. apply b_programs; [exact Hv|]. intros n e' Sn ->. exact (Hs n e' Sn eq_refl). }
    unfold C3, C2 in H5. repeat (apply put_case in H5 as [(-> & ->)|(? & H5)]); [apply licence_belongs, Lt|contradiction|apply b_lib_oclint|apply b_lib|apply b_itself|discriminate H5]. }
  unfold C6 in H. destruct (ba_release args) eqn:Rl; [auto|].
  apply put_case in H as [(-> & ->)|(_ & H)]; [|auto]. eapply (b_dev_name fs0 k (developer env)). unfold k, kind_of. cbn [k_dev]. now rewrite Rl.
Qed.
Lemma C13_belongs t r e : known t -> C13 t r = Some e -> belongs fs0 k r e.
Proof.
  intros K H. unfold C13 in H. destruct (ba_docgen args) eqn:Dg.
  - assert (Nf : ~ full k) by (unfold full, k, kind_of; cbn [k_docgen]; rewrite Dg; discriminate).
    apply copy_case in H as [(r' & -> & Hv)|H]; [apply view_spec in Hv; now apply b_rules|].
    apply (C6_belongs t r e K H). intros n e' Sn. inversion Sn; contradiction.
  - assert (Fu : full k) by exact Dg.
    assert (H9 : C9 t r = Some e -> (forall n e', script fs0 k n e' -> r <> [$"bin"; n]) -> belongs fs0 k r e).
    { intros H9 Hs. apply copy_case in H9 as [(r' & -> & Hv)|H9]; [apply view_spec in Hv; now apply b_headers|].
      apply copy_case in H9 as [(r' & -> & Hv)|H9]; [apply view_spec in Hv; now apply b_reporters|].
      apply copy_case in H9 as [(r' & -> & Hv)|H9]; [apply view_spec in Hv; now apply b_rules|]. exact (C6_belongs t r e K H9 Hs). }
    assert (H11 : C11 t r = Some e -> belongs fs0 k r e).
    { unfold C11. intros H11. destruct (is_darwin env) eqn:Da.
      - apply script_case in H11 as [(-> & Hv & x & c & ->)|(N1 & H11)]; [apply view_spec in Hv; apply b_script; now apply s_xcode|].
        apply script_case in H11 as [(-> & Hv & x & c & ->)|(N2 & H11)]; [apply view_spec in Hv; apply b_script; now apply s_json|].
        apply H9; [exact H11|]. intros n e' Sn. inversion Sn as [x c F1 Hv|x c F1 M Hv]; subst; apply view_spec in Hv; [exact (N2 x c Hv)|exact (N1 x c Hv)].
      - apply script_case in H11 as [(-> & Hv & x & c & ->)|(N2 & H11)]; [apply view_spec in Hv; apply b_script; now apply s_json|].
        apply H9; [exact H11|]. intros n e' Sn. inversion Sn as [x c F1 Hv|x c F1 M Hv]; subst; apply view_spec in Hv; [exact (N2 x c Hv)|].
        exfalso. unfold k, kind_of in M. cbn [k_mac] in M. congruence. }
    unfold C12 in H. destruct (is_darwin env && negb (is_aarch64_or_arm64 env)) eqn:Dx; [|auto].
    apply Bool.andb_true_iff in Dx as (Da & In).
    apply copy_case in H as [(r' & -> & Hv)|H]; [apply view_spec in Hv; now apply b_cxx|].
    apply put_case in H as [(-> & ->)|(_ & H)]; [now apply b_include|auto].
Qed.

Lemma C13_low t r : (forall x, r <> [$"bin"; x]) -> (forall b, r <> $"include" :: b) -> C13 t r = if ba_docgen args then C7 t r else C9 t r.
Proof.
  intros Hb Hi. unfold C13. destruct (ba_docgen args); [reflexivity|]. rewrite <- (C11_other t r Hb). unfold C12.
  destruct (is_darwin env && negb (is_aarch64_or_arm64 env)); [|reflexivity]. unfold copy_c, put_c.
  destruct (beyond [$"include"; $"c++"] r) as [r'|] eqn:E; [apply beyond_spec in E; destruct (Hi _ E)|].
  destruct (loc_eqb r [$"include"]) eqn:E2; [apply loc_eqb_eq in E2; destruct (Hi _ E2)|reflexivity].
Qed.
Lemma C13_bin t r : C13 t ($"bin" :: r) = if ba_docgen args then C6 t ($"bin" :: r) else C11 t ($"bin" :: r).
Proof.
  unfold C13. destruct (ba_docgen args); [reflexivity|]. unfold C12.
  destruct (is_darwin env && negb (is_aarch64_or_arm64 env)); reflexivity.
Qed.
Lemma add_script_no C n w r : (forall x c, w = Some (Regular x c) -> r <> [$"bin"; n]) -> add_script C n w r = C r.
Proof.
  intros H. unfold add_script. destruct w as [[|x c|to]|]; try reflexivity. unfold put_c.
  destruct (loc_eqb r [$"bin"; n]) eqn:E; [|reflexivity]. apply loc_eqb_eq in E. destruct (H x c eq_refl E).
Qed.
Lemma C13_bin_plain t r : (forall n e', script fs0 k n e' -> r <> [n]) -> C13 t ($"bin" :: r) = C6 t ($"bin" :: r).
Proof.
  intros Hs. rewrite C13_bin. destruct (ba_docgen args) eqn:Dg; [reflexivity|]. unfold C11, C10.
  assert (Hj : forall x c, v_json = Some (Regular x c) -> $"bin" :: r <> [$"bin"; $"oclint-json-compilation-database"]).
  { intros x c V E. apply view_spec in V. refine (Hs _ _ (s_json fs0 k x c Dg V) _). exact (f_equal (@tl _) E). }
  destruct (is_darwin env) eqn:Da; rewrite ?add_script_no; try reflexivity; try exact Hj.
  intros x c V E. apply view_spec in V. refine (Hs _ _ (s_xcode fs0 k x c Dg Da V) _). exact (f_equal (@tl _) E).
Qed.
Lemma put_other (C : contents) t e r : r <> t -> put_c C t e r = C r.
Proof. intros H. unfold put_c. destruct (loc_eqb r t) eqn:E; [apply loc_eqb_eq in E; contradiction|reflexivity]. Qed.
Lemma put_same (C : contents) t e : put_c C t e t = Some e.
Proof. unfold put_c. assert (E : loc_eqb t t = true) by now apply loc_eqb_eq. now rewrite E. Qed.
Lemma names_script n e : script fs0 k n e -> n = $"oclint-json-compilation-database" \/ n = $"oclint-xcodebuild".
Proof. intros H. inversion H; auto. Qed.
Lemma belongs_C13 t r e : known t -> belongs fs0 k r e -> C13 t r = Some e.
Proof.
  intros K Hb. pose proof K as (Lt & Vo & Vd & Vb). destruct Hb as
    [ |x own Ho Hn|x own c a Ho Hs Hh|r e Hv Hs| |v Hd|n e Sn| | |r e Hv|r e F Hv|r e F Hv|F M I|r e F M I Hv].
  - rewrite C13_low by (intros ? E; discriminate E). destruct (ba_docgen args); exact (C6_dir t).
  - destruct (licence_fun t x own Lt Ho) as (H & _). rewrite C13_low by (intros ? E; discriminate E). rewrite <- (H Hn).
    destruct (ba_docgen args); unfold C9, C8, C7, C6; destruct (ba_release args); reflexivity.
  - destruct (licence_fun t x own Lt Ho) as (_ & H). rewrite C13_low by (intros ? E; discriminate E). rewrite <- (H c a Hs Hh).
    destruct (ba_docgen args); unfold C9, C8, C7, C6; destruct (ba_release args); reflexivity.
  - rewrite C13_bin_plain by exact Hs. apply view_spec in Hv.
    assert (H5 : C5 t ($"bin" :: r) = Some e).
    { unfold C5. rewrite put_other; [exact Hv|]. intros E. pose proof (f_equal (@tl _) E) as E'. cbn [tl] in E'. subst r.
      unfold v_bin in Vo. rewrite Vo in Hv. discriminate Hv. }
    unfold C6. destruct (ba_release args) eqn:Rl; [exact H5|]. rewrite put_other; [exact H5|]. intros E. pose proof (f_equal (@tl _) E) as E'. cbn [tl] in E'.
    specialize (Vd eq_refl). unfold v_bin in Vd. rewrite E', Vd in Hv. discriminate Hv.
  - rewrite C13_bin_plain. 2:{ intros n e' Sn E. destruct (names_script n e' Sn) as [->| ->]; discriminate E. }
    unfold C6. destruct (ba_release args); reflexivity.
  - unfold k, kind_of in Hd. cbn [k_dev] in Hd. destruct (ba_release args) eqn:Rl; [discriminate Hd|].
    assert (v = developer env) as -> by congruence. clear Hd.
    rewrite C13_bin_plain. 2:{ intros n e' Sn E. destruct (names_script n e' Sn) as [->| ->]; discriminate E. }
    unfold C6. rewrite Rl. apply put_same.
  - rewrite C13_bin. destruct Sn as [x c F Hv|x c F M Hv]; unfold full, k, kind_of in F; cbn [k_docgen] in F; rewrite F; apply view_spec in Hv; unfold C11.
    + assert (H10 : C10 t [$"bin"; $"oclint-json-compilation-database"] = Some (Regular x c)).
      { unfold C10, v_json, add_script. rewrite Hv. apply put_same. }
      destruct (is_darwin env); [|exact H10]. rewrite add_script_no; [exact H10|]. intros x' c' _ E. discriminate E.
    + unfold k, kind_of in M. cbn [k_mac] in M. rewrite M. unfold add_script, v_xcode. rewrite Hv. apply put_same.
  - rewrite C13_low by (intros ? E; discriminate E). destruct (ba_docgen args); unfold C9, C8, C7, C6; destruct (ba_release args); reflexivity.
  - rewrite C13_low by (intros ? E; discriminate E). destruct (ba_docgen args); unfold C9, C8, C7, C6; destruct (ba_release args); reflexivity.
  - apply view_spec in Hv. rewrite C13_low by (intros ? E; discriminate E). destruct (ba_docgen args); exact Hv.
  - apply view_spec in Hv. unfold full, k, kind_of in F. cbn [k_docgen] in F. rewrite C13_low by (intros ? E; discriminate E). rewrite F. exact Hv.
  - apply view_spec in Hv. unfold full, k, kind_of in F. cbn [k_docgen] in F. rewrite C13_low by (intros ? E; discriminate E). rewrite F. exact Hv.
  - unfold full, k, kind_of in F, M, I. cbn [k_docgen k_mac k_intel] in F, M, I. unfold C13, C12. rewrite F, M, I. reflexivity.
  - apply view_spec in Hv. unfold full, k, kind_of in F, M, I. cbn [k_docgen k_mac k_intel] in F, M, I. unfold C13, C12. rewrite F, M, I. exact Hv.
Qed.
Lemma body_exact cwd : tri (fun s => m_fs s = fs0 /\ m_cwd s = cwd) body
  (fun s => safe fs0 ts s /\ forall r e, m_fs s (B ++ r) = Some e <-> belongs fs0 k r e).
Proof.
  eapply triple_weaken; [apply body_ok|intros s H; exact H|]. intros s (t & K & S). split; [exact (stb_safe _ _ _ S)|].
  intros r e. destruct S as ((_ & HC) & _). change (D ++ [$"oclint-release"]) with B in HC. rewrite HC. split; [now apply C13_belongs|now apply belongs_C13].
Qed.
End Body.

(** ** Archiving *)
Lemma bundle_body env args s : bundle env args s = seq (body env args) (when (ba_archive args) (archive env (ba_release args))) s.
Proof.
  unfold bundle, body. set (ar := when (ba_archive args) (archive env (ba_release args))). unfold seq, bind.
  destruct (setup_release_dir env s) as ([u|w|] & s1); try reflexivity.
  destruct (install_licenses env (ba_llvm_root args) s1) as ([u1|w|] & s2); try reflexivity.
  destruct (install_binary env (ba_release args) s2) as ([u2|w|] & s3); try reflexivity.
  destruct (install_rules env s3) as ([u3|w|] & s4); reflexivity.
Qed.
(** The names that archiving gives: of the directory and of the file. *)
Definition version_of (env : surroundings) (args : bundleargs) : str := if ba_release args then $"26.02" else developer env.
Definition archived (env : surroundings) (args : bundleargs) : str := $"oclint-" ++ version_of env args.
Definition system (env : surroundings) : str := map tolower (e_arch env) ++ $"-" ++ map tolower (e_kernel env) ++ $"-" ++ e_kernel_version env.
Definition packed (env : surroundings) (args : bundleargs) : str := $"oclint-" ++ version_of env args ++ $"-" ++ system env ++ $".tar.gz".
(** What bundling may touch, in the build directory [D]. *)
Definition touched (env : surroundings) (args : bundleargs) (D : list str) : list (list str) :=
  (D ++ [$"oclint-release"]) :: if ba_archive args then [D ++ [archived env args]; D ++ [packed env args]] else [].
Definition plain_system (env : surroundings) : Prop :=
  ~ In "/"%char (e_arch env) /\ ~ In "/"%char (e_kernel env) /\ ~ In "/"%char (e_kernel_version env).

Lemma pjoin_app a b c : b <> [] -> pjoin a b ++ c = pjoin a (b ++ c).
Proof.
  intros Nb. unfold pjoin. rewrite absolute_app by exact Nb. destruct (absolute b); [reflexivity|].
  destruct (rev a) as [|x ra]; [reflexivity|]. destruct (ascii_eqb x "/"%char); now rewrite <- !app_assoc.
Qed.

Section Archive.
Variable env : surroundings.
Variable args : bundleargs.
Variable fs0 : filesystem.
Variable D : list str.
Let ts := touched env args D.
Hypothesis Ar : ba_archive args = true.
Hypothesis R : ready env args fs0 ts D.
Hypothesis Sys : plain_system env.
Let k := kind_of env args.
Let B := D ++ [$"oclint-release"].
Let A := D ++ [archived env args].
Let F := D ++ [packed env args].
Let W := built k [].
Lemma in_B_ts : In B ts. Proof. now left. Qed.
Lemma in_A_ts : In A ts. Proof. unfold ts, touched. rewrite Ar. right. now left. Qed.
Lemma in_F_ts : In F ts. Proof. unfold ts, touched. rewrite Ar. right. right. now left. Qed.
Lemma tolower_slash s : In "/"%char (map tolower s) -> In "/"%char s.
Proof.
  intros H. apply in_map_iff in H as (c & E & I). unfold tolower in E. destruct (isupper c) eqn:U; [|now subst c].
  exfalso. unfold isupper in U. revert E U. destruct c as [[|] [|] [|] [|] [|] [|] [|] [|]]; vm_compute; intros E U; discriminate.
Qed.
Lemma no_lit (l : str) (s : str) : In "/"%char (l ++ s) -> existsb (fun c => ascii_eqb c "/"%char) l = false -> In "/"%char s.
Proof.
  intros H N. apply in_app_or in H as [H|H]; [|exact H]. exfalso.
  assert (X : existsb (fun c => ascii_eqb c "/"%char) l = true) by (apply existsb_exists; exists "/"%char; split; [exact H|now apply ascii_eqb_eq]). congruence.
Qed.
Lemma version_plain : ~ In "/"%char (version_of env args).
Proof.
  unfold version_of. intros I. destruct (ba_release args); [rewrite <- (app_nil_r $"26.02") in I; now apply no_lit in I|].
  unfold developer in I. apply no_lit in I; [|reflexivity]. destruct (e_git env) as [h|] eqn:G; [apply R in G; contradiction|].
  rewrite <- (app_nil_r $"src") in I. now apply no_lit in I.
Qed.
Lemma names_archived : names (archived env args) = [archived env args].
Proof.
  apply names_plain; [reflexivity|]. unfold archived. intros I. apply no_lit in I; [|reflexivity]. exact (version_plain I).
Qed.
Lemma names_packed : names (packed env args) = [packed env args].
Proof.
  apply names_plain; [reflexivity|]. unfold packed, system. intros I. apply no_lit in I; [|reflexivity].
  apply in_app_or in I as [I|I]; [exact (version_plain I)|]. apply no_lit in I; [|reflexivity]. destruct Sys as (S1 & S2 & S3).
  apply in_app_or in I as [I|I].
  - apply in_app_or in I as [I|I]; [exact (S1 (tolower_slash _ I))|]. apply no_lit in I; [|reflexivity].
    apply in_app_or in I as [I|I]; [exact (S2 (tolower_slash _ I))|]. apply no_lit in I; [|reflexivity]. exact (S3 I).
  - rewrite <- (app_nil_r $".tar.gz") in I. now apply no_lit in I.
Qed.
Lemma a_path : good (oclint_module_build_dir env (if ba_release args then oclint_version else oclint_dev_version env)) (W ++ [archived env args]).
Proof.
  apply good_pjoin; [exact (g_build env args fs0 ts D R)|reflexivity|]. etransitivity; [|exact names_archived]. unfold archived, version_of. destruct (ba_release args); reflexivity.
Qed.
Lemma a_base : good (pjoin (build_root env) ($"oclint-" ++ (if ba_release args then oclint_version else oclint_dev_version env))) (W ++ [archived env args]).
Proof. exact a_path. Qed.
Lemma f_path : good (oclint_module_build_dir env ((if ba_release args then oclint_version else oclint_dev_version env) ++ $"-" ++ dist_env env) ++ $".tar.gz") (W ++ [packed env args]).
Proof.
  assert (E : oclint_module_build_dir env ((if ba_release args then oclint_version else oclint_dev_version env) ++ $"-" ++ dist_env env) ++ $".tar.gz"
     = pjoin (build_root env) (packed env args)).
  { unfold oclint_module_build_dir. rewrite pjoin_app by discriminate. f_equal. unfold packed, version_of, system, dist_env, arch, kernel.
    destruct (ba_release args); rewrite <- !app_assoc; reflexivity. }
  rewrite E. apply good_pjoin; [exact (g_build env args fs0 ts D R)|reflexivity|exact names_packed].
Qed.

Definition done_archive (s : machine) : Prop :=
  safe fs0 ts s /\ (forall r e, m_fs s (A ++ r) = Some e <-> belongs fs0 k r e) /\ (forall r, m_fs s (B ++ r) = None)
  /\ exists tree, (forall r e, tree r = Some e <-> belongs fs0 k r e)
     /\ m_fs s F = Some (Regular false (e_pack env (archived env args) tree)).
Lemma not_below n m r : n <> m -> D ++ [m] ++ r <> D ++ [n].
Proof. intros N E. apply app_inv_head in E. injection E as -> _. now apply N. Qed.
Lemma beyond_other n m r : n <> m -> beyond (D ++ [n]) (D ++ [m] ++ r) = None.
Proof.
  intros N. rewrite beyond_prefix. cbn. destruct (str_eqb n m) eqn:E; [apply str_eqb_eq in E; contradiction|reflexivity].
Qed.
Lemma BA : $"oclint-release" <> archived env args.
Proof. unfold archived, version_of. destruct (ba_release args); discriminate. Qed.
Lemma AF : archived env args <> packed env args.
Proof.
  intros E. apply (f_equal (@length _)) in E. unfold archived, packed in E. rewrite !app_length in E. change (length $"-") with 1 in E. lia.
Qed.
Lemma BF : $"oclint-release" <> packed env args.
Proof. unfold packed, version_of. destruct (ba_release args); discriminate. Qed.
Lemma archive_ok : triple fs0 ts (fun s => safe fs0 ts s /\ forall r e, m_fs s (B ++ r) = Some e <-> belongs fs0 k r e)
  (archive env (ba_release args)) done_archive.
Proof.
  pose proof (the_way env args fs0 ts D R) as Wy.
  unfold archive. cbv zeta. apply triple_seq with (Q := fun s => safe fs0 ts s /\ (forall r e, m_fs s (A ++ r) = Some e <-> belongs fs0 k r e) /\ (forall r, m_fs s (B ++ r) = None)).
  - intros s (S & HB). unfold mv.
    rewrite (root_place fs0 ts D W $"oclint-release" rel_ok Wy in_B_ts s _ (g_bundle env args fs0 ts D R) S).
    destruct (safe_D fs0 ts D W _ Wy in_B_ts s S) as (Fo & Di).
    rewrite (place_of s _ W (archived env args) D a_path ltac:(discriminate) Fo Di). change (D ++ [archived env args]) with A. change (D ++ [$"oclint-release"]) with B.
    assert (FB : m_fs s B = Some Directory) by (rewrite <- (app_nil_r B); apply HB, b_itself). rewrite FB.
    destruct (m_fs s A) as [e|] eqn:FA; [cbn; split; [exact S|discriminate]|].
    assert (Bey : beyond B A = None) by (apply (beyond_other _ _ []), BA). rewrite Bey. unfold operation.
    destruct (e_breaks env (m_ops s)) as [(w & g)|]; cbn [fst snd].
    + split; [exact S|intros X; discriminate X].
    + assert (HA : forall r, moved (m_fs s) B A (A ++ r) = m_fs s (B ++ r)) by (intros r; unfold moved; now rewrite beyond_app).
      assert (HN : forall r, moved (m_fs s) B A (B ++ r) = None).
      { intros r. unfold moved. rewrite beyond_app. assert (X : beyond A (B ++ r) = None) by (unfold A, B; rewrite <- app_assoc; apply beyond_other; intros E; symmetry in E; exact (BA E)). now rewrite X. }
      assert (Sf : safe fs0 ts {| m_fs := moved (m_fs s) B A; m_cwd := m_cwd s; m_ops := Datatypes.S (m_ops s) |}).
      { intros q O. cbn [m_fs]. unfold moved. destruct (beyond A q) as [r|] eqn:E1; [apply beyond_spec in E1; destruct (O A in_A_ts); now exists r|].
        destruct (beyond B q) as [r|] eqn:E2; [apply beyond_spec in E2; destruct (O B in_B_ts); now exists r|]. now apply S. }
      split; [exact Sf|]. intros _. split; [exact Sf|]. split; [intros r e; cbn [m_fs]; rewrite HA; apply HB|exact HN].
  - intros s (S & HA & HN). unfold make_archive. destruct (safe_D fs0 ts D W _ Wy in_B_ts s S) as (Fo & Di).
    assert (FA : m_fs s A = Some Directory) by (rewrite <- (app_nil_r A); apply HA, b_itself).
    destruct (follow_end (m_fs s) W D (archived env args) Fo Di ltac:(discriminate)) as (H1 & _).
    match goal with |- context [at_path s ?p] => assert (EA : at_path s p = Some A) by (etransitivity; [exact (at_path_good s _ _ a_base)|exact (H1 Directory FA ltac:(discriminate))]) end.
    rewrite EA.
    unfold create.
    match goal with |- context [place s ?p] => assert (EF : place s p = Some F) by exact (place_of s _ W (packed env args) D f_path ltac:(discriminate) Fo Di) end.
    rewrite EF.
    match goal with |- context [e_pack env ?n] => assert (Nm : n = archived env args) by (unfold archived, version_of; destruct (ba_release args); reflexivity) end. rewrite Nm.
    set (e := Regular false (e_pack env (archived env args) (fun r => m_fs s (A ++ r)))).
    assert (Put : safe fs0 ts (snd (operation env (Some F) (fun fs => put fs F e) s))
       /\ (fst (operation env (Some F) (fun fs => put fs F e) s) = Val tt -> done_archive (snd (operation env (Some F) (fun fs => put fs F e) s)))).
    { destruct (op_safe env fs0 ts F (fun fs => put fs F e) s (ex_intro _ F (conj in_F_ts (ex_intro _ [] (eq_sym (app_nil_r F))))) (fun q => put_off _ _ _ q) S) as (Sf & V).
      split; [exact Sf|]. intros E. destruct (V E) as (Ff & _). unfold done_archive. rewrite Ff. split; [exact Sf|].
      assert (OA : forall n r, n <> packed env args -> put (m_fs s) F e (D ++ [n] ++ r) = m_fs s (D ++ [n] ++ r)).
      { intros n r Nn. unfold put. destruct (loc_eqb (D ++ [n] ++ r) F) eqn:L; [|reflexivity]. apply loc_eqb_eq in L.
        exfalso. exact (not_below (packed env args) n r (fun X => Nn (eq_sym X)) L). }
      split; [intros r e'; unfold A; rewrite <- app_assoc, OA by exact AF; rewrite app_assoc; apply HA|].
      split; [intros r; unfold B; rewrite <- app_assoc, OA by exact BF; rewrite app_assoc; apply HN|].
      exists (fun r => m_fs s (A ++ r)). split; [exact HA|]. unfold put. assert (L : loc_eqb F F = true) by now apply loc_eqb_eq. now rewrite L. }
    destruct (m_fs s F) as [[|x c|to]|]; try exact Put; cbn; (split; [exact S|discriminate]).
Qed.
End Archive.

(** ** The theorems *)
Lemma bundle_run env args fs cwd D : ready env args fs (touched env args D) D -> (ba_archive args = true -> plain_system env) ->
  triple fs (touched env args D) (fun s => m_fs s = fs /\ m_cwd s = cwd) (bundle env args)
    (fun s => if ba_archive args then done_archive env args fs D s
              else safe fs (touched env args D) s /\ forall r e, m_fs s ((D ++ [$"oclint-release"]) ++ r) = Some e <-> belongs fs (kind_of env args) r e).
Proof.
  intros R Sys. assert (In (D ++ [$"oclint-release"]) (touched env args D)) as Bt by now left.
  intros s Hs. rewrite bundle_body. revert s Hs. change (triple fs (touched env args D) (fun s => m_fs s = fs /\ m_cwd s = cwd)
    (seq (body env args) (when (ba_archive args) (archive env (ba_release args))))
    (fun s => if ba_archive args then done_archive env args fs D s
              else safe fs (touched env args D) s /\ forall r e, m_fs s ((D ++ [$"oclint-release"]) ++ r) = Some e <-> belongs fs (kind_of env args) r e)).
  eapply triple_seq; [exact (body_exact env args fs _ D R Bt cwd)|]. apply triple_when.
  - intros s (S & _). exact S.
  - intros Ar. rewrite Ar. exact (archive_ok env args fs D Ar R (Sys Ar)).
  - intros Ar s H. rewrite Ar. exact H.
Qed.
Lemma small_tolower s : map small s = map tolower s.
Proof. apply map_ext. intros c. destruct c as [[|] [|] [|] [|] [|] [|] [|] [|]]; vm_compute; reflexivity. Qed.
Lemma answers_prefix a u : prefixb a (map tolower u) = true <-> answers a u.
Proof.
  unfold answers. rewrite small_tolower. generalize (map tolower u). clear u. induction a as [|c a IH]; intros u; cbn [prefixb].
  - split; [intros _; now exists u|reflexivity].
  - destruct u as [|d u]; [split; [discriminate|intros (r & E); discriminate E]|]. rewrite andb_true_iff, IH, ascii_eqb_eq. split.
    + intros (-> & r & ->). now exists r.
    + intros (r & E). injection E as -> ->. split; [reflexivity|now exists r].
Qed.
(** Which scripts and headers are wanted: by what [uname] says, and by nothing else but the options. *)
Theorem c137_machine : forall env args, let k := kind_of env args in
  (k_mac k = true <-> answers $"darwin" (e_kernel env))
  /\ (k_intel k = true <-> ~ answers $"aarch64" (e_arch env) /\ ~ answers $"arm64" (e_arch env))
  /\ (k_dev k = None <-> ba_release args = true).
Proof.
  intros env args. cbv zeta. unfold kind_of. cbn [k_mac k_intel k_dev]. split; [apply answers_prefix|]. split.
  - unfold is_aarch64_or_arm64, arch. rewrite <- !answers_prefix, negb_true_iff, orb_false_iff, !not_true_iff_false. reflexivity.
  - destruct (ba_release args); intuition discriminate.
Qed.
Example c137_machine_case : answers $"darwin" $"Darwin" /\ answers $"arm64" $"arm64" /\ ~ answers $"arm64" $"x86_64".
Proof. split; [now exists []|]. split; [now exists []|]. intros (r & E). discriminate E. Qed.

(** Whatever goes wrong, and wherever the script stops, nothing else is changed. *)
Theorem c137_nothing_else_changes : forall env args fs cwd D,
  ready env args fs (touched env args D) D -> (ba_archive args = true -> plain_system env) ->
  forall q, off (touched env args D) q -> m_fs (snd (bundle env args (start fs cwd))) q = fs q.
Proof.
  intros env args fs cwd D R Sys q O. destruct (bundle_run env args fs cwd D R Sys (start fs cwd) (conj eq_refl eq_refl)) as (S & _). exact (S q O).
Qed.
(** A successful run leaves in build/oclint-release what belongs there and nothing else, whatever
    was there before. *)
Theorem c137_bundle_is_complete_and_fresh : forall env args fs cwd D,
  ready env args fs (touched env args D) D -> ba_archive args = false ->
  fst (bundle env args (start fs cwd)) = Val tt ->
  forall r e, m_fs (snd (bundle env args (start fs cwd))) (D ++ $"oclint-release" :: r) = Some e <-> belongs fs (kind_of env args) r e.
Proof.
  intros env args fs cwd D R Ar E r e.
  destruct (bundle_run env args fs cwd D R) with (s := start fs cwd) as (_ & V); [congruence|split; reflexivity|].
  specialize (V E). rewrite Ar in V. destruct V as (_ & V). rewrite <- (V r e), <- app_assoc. reflexivity.
Qed.
(** With -archive it ends in build/oclint-<version> instead, and packed beside it. *)
Theorem c137_archive_holds_the_bundle : forall env args fs cwd D,
  ready env args fs (touched env args D) D -> plain_system env -> ba_archive args = true ->
  fst (bundle env args (start fs cwd)) = Val tt ->
  let fs' := m_fs (snd (bundle env args (start fs cwd))) in
  (forall r e, fs' (D ++ archived env args :: r) = Some e <-> belongs fs (kind_of env args) r e)
  /\ (forall r, fs' (D ++ $"oclint-release" :: r) = None)
  /\ exists tree, (forall r e, tree r = Some e <-> belongs fs (kind_of env args) r e)
     /\ fs' (D ++ [packed env args]) = Some (Regular false (e_pack env (archived env args) tree)).
Proof.
  intros env args fs cwd D R Sys Ar E fs'.
  destruct (bundle_run env args fs cwd D R) with (s := start fs cwd) as (_ & V); [auto|split; reflexivity|].
  specialize (V E). rewrite Ar in V. destruct V as (_ & HA & HB & HF). split; [|split; [|exact HF]].
  - intros r e. rewrite <- (HA r e), <- app_assoc. reflexivity.
  - intros r. specialize (HB r). rewrite <- app_assoc in HB. exact HB.
Qed.

(** ** What was built is what runs *)
Lemma within_last fs k d ns t : closed fs -> within fs k d ns t -> is_directory fs d ->
  is_directory fs t \/ exists x c, fs t = Some (Regular x c).
Proof.
  intros Cl H. induction H; intros Hd.
  - now left.
  - apply IHwithin. destruct d as [|y d _] using rev_ind; [now left|]. rewrite removelast_last. destruct Hd as [Hd|Hd]; [destruct d; discriminate Hd|]. eapply Cl, Hd.
  - apply IHwithin. now right.
  - right. eauto.
  - apply IHwithin. destruct (absolute to); [now left|exact Hd].
Qed.
Lemma shows_kind fs src r e : closed fs -> shows fs src r e -> e = Directory \/ exists x c, e = Regular x c.
Proof.
  intros Cl (_ & t & W & H). apply (within_last fs 40 [] _ t Cl) in W; [|now left]. destruct H as [(_ & ->)|(Nt & H)]; [now left|].
  destruct W as [[W|W]|(x & c & W)]; [contradiction|left; congruence|right; exists x, c; congruence].
Qed.
Lemma belongs_rules fs k r e : belongs fs k ($"lib" :: $"oclint" :: $"rules" :: r) e -> shows fs (built k [$"oclint-rules"; $"rules.dl"]) r e.
Proof.
  intros H. inversion H as [ |x own Ho Hn E|x own c a Ho Hs Hh E|r0 e0 Hv Hs E| E|v Hd E|n e0 Sn E| E| E|r0 e0 Hv E|r0 e0 F Hv E|r0 e0 F Hv E|F M I E|r0 e0 F M I Hv E];
    subst; try discriminate; assumption.
Qed.
(** Whoever starts a program in the bin directory of a bundle, wherever that is by now, and names no
    rule path, runs with the rules of the libraries that were built; nothing else of what was built
    or is around counts. *)
Theorem c137_built_is_what_runs : forall fs0 k, closed fs0 ->
  forall fs P, sane fs -> (forall r e, fs (P ++ r) = Some e <-> belongs fs0 k r e) ->
  forall cwd pwd wd can PATH home a f dir lib w s rules,
  current fs cwd pwd -> (forall p, can p = true <-> runnable fs cwd p) -> ~ In [] PATH ->
  executed fs cwd PATH a f -> lies_in f dir -> opens fs cwd dir (P ++ [$"bin"]) -> is_directory fs (P ++ [$"bin"]) ->
  w_env w = started can PATH pwd wd home a -> lists_directories fs cwd w -> opens_libraries fs cwd lib w ->
  options_are w s -> argRulesPath s = [] -> rules_loaded w s rules ->
  (forall n e, visible n -> shows fs0 (built k [$"oclint-rules"; $"rules.dl"]) [n] e ->
     exists x c rs, e = Regular x c /\ lib c = Some rs)
  /\ forall j, In j rules <-> exists n x c rs, visible n
     /\ shows fs0 (built k [$"oclint-rules"; $"rules.dl"]) [n] (Regular x c) /\ lib c = Some rs /\ In j rs.
Proof.
  intros fs0 k Cl fs P Sn HP cwd pwd wd can PATH home a f dir lib w s rules C Can Ne Ex Li Op Db En Ld Ol Os Rp Rl.
  destruct (c136_default_rules fs cwd pwd wd can PATH home a f dir (P ++ [$"bin"]) lib w s rules Sn C Can Ne Ex Li Op Db En Ld Ol Os Rp Rl)
    as (L & HL & DL & All & Ru).
  assert (Ed : removelast (P ++ [$"bin"]) = P) by now rewrite removelast_last. rewrite Ed in HL. clear Ed.
  assert (EL : L = P ++ [$"lib"; $"oclint"; $"rules"]).
  { assert (HP' : forall r n e, fs ((P ++ r) ++ [n]) = Some e <-> belongs fs0 k (r ++ [n]) e) by (intros r n e; rewrite <- app_assoc; apply HP).
    inversion HL as [| |d n ns t N E H|d n x c N E|d n to ns t N E H]; subst; try discriminate; cycle 1.
    { apply HP in E. inversion E. }
    clear N E. inversion H as [| |d n ns t N E H'|d n x c N E|d n to ns t N E H']; subst; try discriminate; cycle 1.
    { apply HP' in E. inversion E. }
    clear N E. rewrite <- app_assoc in H'. cbn [app] in H'. inversion H' as [| |d n ns t N E H''|d n x c N E|d n to ns t N E H'']; subst; try discriminate.
    - inversion H''. subst. rewrite <- app_assoc. reflexivity.
    - rewrite <- app_assoc. reflexivity.
    - apply HP', belongs_rules in E. destruct (shows_kind _ _ _ _ Cl E) as [X|(x & c & X)]; discriminate X. }
  assert (In1 : forall n e, fs (L ++ [n]) = Some e <-> shows fs0 (built k [$"oclint-rules"; $"rules.dl"]) [n] e).
  { intros n e. rewrite EL, <- app_assoc. cbn [app]. rewrite HP. split; [apply belongs_rules|now constructor]. }
  assert (Fl : forall n t x c, leads fs L [n] t -> fs t = Some (Regular x c) -> n <> $".." -> fs (L ++ [n]) = Some (Regular x c)).
  { intros n t x c H F N. clear - H F N In1 Cl. inversion H as [|d ns t0 H' E1 E2 E3|d n0 ns t0 N' E H' E1 E2 E3|d n0 x0 c0 N' E E1 E2 E3|d n0 to ns t0 N' E H' E1 E2 E3]; subst.
    - contradiction N. reflexivity.
    - inversion H'; subst. congruence.
    - exact F.
    - apply In1, shows_kind in E; [|exact Cl]. destruct E as [E|(? & ? & E)]; discriminate E. }
  split.
  - intros n e V Sh. apply In1 in Sh. destruct (All n V) as (t & x & c & rs & H & F & Lc); [congruence|]. exists x, c, rs. split; [|exact Lc].
    apply (Fl n t x c H) in F; [congruence|]. intros ->. apply Sn in Sh. tauto.
  - intros j. rewrite (Ru j). split.
    + intros (n & t & x & c & rs & V & H & F & Lc & I). exists n, x, c, rs. split; [exact V|]. split; [|tauto]. apply In1. apply (Fl n t x c H F).
      intros ->. exact (V $"." eq_refl).
    + intros (n & x & c & rs & V & Sh & Lc & I). apply In1 in Sh. exists n, (L ++ [n]), x, c, rs. split; [exact V|]. split; [|tauto].
      eapply l_file; [|exact Sh]. intros ->. exact (V $"." eq_refl).
Qed.

(** ** Machines without links in the way are ready *)
Lemma plain_follow fs fs' k d ns :
  (forall a n r, ns = a ++ n :: r -> n <> $".." /\ fs' (d ++ a ++ [n]) = fs (d ++ a ++ [n]) /\ forall to, fs (d ++ a ++ [n]) <> Some (Symlink to)) ->
  follow k fs' d ns = follow k fs d ns /\ forall t, follow k fs d ns = Some t -> t = d ++ ns.
Proof.
  revert d. induction ns as [|n ns IH]; intros d H.
  - rewrite !follow_nil. split; [reflexivity|]. intros t [= <-]. now rewrite app_nil_r.
  - rewrite !follow_cons. destruct (H [] n ns eq_refl) as (N & E & L). cbn [app] in E, L. rewrite E.
    apply str_eqb_neq in N. rewrite N. destruct (IH (d ++ [n])) as (IH1 & IH2).
    { intros a m r ->. rewrite <- app_assoc. cbn [app]. exact (H (n :: a) m r eq_refl). }
    rewrite <- app_assoc in IH2. cbn [app] in IH2. destruct (fs (d ++ [n])) as [[|x c|to]|] eqn:F.
    + split; [exact IH1|exact IH2].
    + split; [reflexivity|]. destruct ns; [|discriminate]. cbn [is_nil]. intros t [= <-]. reflexivity.
    + destruct (L to eq_refl).
    + split; [reflexivity|discriminate].
Qed.
Definition apart (ts : list (list str)) (src : list str) : Prop := forall t, In t ts -> ~ below t src /\ ~ below src t.
(** No link leads to [src], through it or out of it. *)
Definition unlinked (fs : filesystem) (src : list str) : Prop :=
  ~ In $".." src /\ forall q to, below src q \/ below q src -> fs q <> Some (Symlink to).
Lemma app_comparable {A} (a b x y : list A) : a ++ x = b ++ y -> (exists z, a = b ++ z) \/ exists z, b = a ++ z.
Proof.
  revert b. induction a as [|h a IH]; intros b E; [right; now exists b|]. destruct b as [|h' b]; [left; now exists (h :: a)|].
  injection E as <- E. destruct (IH b E) as [(z & ->)|(z & ->)]; [left|right]; now exists z.
Qed.
Lemma apart_off ts src q : apart ts src -> below src q \/ below q src -> off ts q.
Proof.
  intros Ap C t It (z & E). destruct (Ap t It) as (N1 & N2). destruct C as [(y & Ey)|(y & Ey)]; subst q.
  - destruct (app_comparable src t y z E) as [(u & ->)|(u & ->)]; [apply N1|apply N2]; now exists u.
  - apply N1. exists (z ++ y). now rewrite app_assoc, <- Ey.
Qed.
Lemma unlinked_independent fs ts src : unlinked fs src -> apart ts src -> independent fs ts src.
Proof.
  intros (Up & L) Ap fs' Sm r e. unfold shows, reaches.
  assert (F : ~ In $".." r -> follow 40 fs' [] (src ++ r) = follow 40 fs [] (src ++ r) /\ forall t, follow 40 fs [] (src ++ r) = Some t -> t = src ++ r).
  { intros Nr. apply (plain_follow fs fs' 40 [] (src ++ r)). intros a n x E. cbn [app].
    assert (C : below src (a ++ [n]) \/ below (a ++ [n]) src).
    { replace (a ++ n :: x) with ((a ++ [n]) ++ x) in E by now rewrite <- app_assoc.
      destruct (app_comparable src (a ++ [n]) r x E) as [(z & ->)|(z & Ez)]; [right|left]; now exists z. }
    split. { intros ->. assert (I : In $".." (src ++ r)) by (rewrite E; apply in_app_iff; right; now left). apply in_app_iff in I. tauto. }
    split; [apply Sm, (apart_off ts src); assumption|]. intros to. now apply L. }
  assert (O : off ts (src ++ r)) by (apply (apart_off ts src); [assumption|left; now exists r]).
  split; intros (Nr & t & W & H); (split; [exact Nr|]); destruct (F Nr) as (F1 & F2).
  - apply within_follow in W. rewrite F1 in W. pose proof (F2 t W) as ->. exists (src ++ r). split; [now apply follow_within|].
    unfold holds in *. now rewrite (Sm _ O) in H.
  - apply within_follow in W. pose proof (F2 t W) as ->. exists (src ++ r). rewrite <- F1 in W. split; [now apply follow_within|].
    unfold holds in *. now rewrite (Sm _ O).
Qed.
Lemma plain_way fs ts ns : ~ In $".." ns -> (forall q r, ns = q ++ r -> is_directory fs q) -> off ts ns -> way fs ts ns ns.
Proof.
  intros Up Di O. split; [exact O|]. split; [apply (Di ns []); now rewrite app_nil_r|]. intros fs' Sm. unfold reaches.
  assert (G : forall d r, ns = d ++ r -> within fs' 40 d r ns).
  { intros d r. revert d. induction r as [|n r IH]; intros d E; [rewrite app_nil_r in E; subst; constructor|].
    assert (E' : ns = (d ++ [n]) ++ r) by now rewrite <- app_assoc.
    apply w_down; [intros ->; apply Up; rewrite E; apply in_app_iff; right; now left| |now apply IH].
    rewrite Sm. { destruct (Di _ _ E') as [X|X]; [destruct d; discriminate X|exact X]. }
    intros t It (z & Ez). apply (O t It). exists (z ++ r). rewrite E', Ez. now rewrite app_assoc. }
  exact (G [] ns eq_refl).
Qed.
(** If the checkout and LLVM are named by absolute paths through directories and without links in
    them, and LLVM is not among what bundling replaces, bundling is safe to start. *)
Theorem c137_plain_checkout_is_ready : forall env args fs,
  absolute (e_root env) = true -> absolute (ba_llvm_root args) = true ->
  (forall h, e_git env = Some h -> ~ In "/"%char h) -> closed fs ->
  let root := names (e_root env) in let llvm := names (ba_llvm_root args) in let D := root ++ [$"build"] in
  unlinked fs root -> unlinked fs llvm -> (forall q r, D = q ++ r -> is_directory fs q) ->
  apart (touched env args D) llvm ->
  ready env args fs (touched env args D) D.
Proof.
  intros env args fs Ar Al Git Cl root llvm D Ur Ul Di Ap.
  split; [exact Ar|]. split; [exact Al|]. split; [exact Git|]. split; [exact Cl|].
  assert (Tl : forall t, In t (touched env args D) -> exists n, t = root ++ [$"build"; n] /\
    (n = $"oclint-release" \/ exists v, n = $"oclint-2" ++ v)).
  { assert (V : exists v, version_of env args = $"2" ++ v) by (unfold version_of, developer; destruct (ba_release args); [now exists $"6.02"|eexists; reflexivity]).
    destruct V as (v & Ev). assert (Rw : forall n, D ++ [n] = root ++ [$"build"; n]) by (intros n; unfold D; now rewrite <- app_assoc).
    intros t [<-|It]; [exists $"oclint-release"; rewrite Rw; auto|].
    destruct (ba_archive args); [|contradiction It]. destruct It as [<-|[<-|[]]]; eexists; (split; [apply Rw|right]).
    - exists v. unfold archived. rewrite Ev, app_assoc. reflexivity.
    - eexists. unfold packed. rewrite Ev, <- app_assoc, app_assoc. reflexivity. }
  assert (Sub : forall r, ~ In $".." r -> (forall n, $"oclint-release" = n \/ (exists v, n = $"oclint-2" ++ v) -> ~ below [$"build"; n] r /\ ~ below r [$"build"; n]) ->
            independent fs (touched env args D) (root ++ r)).
  { intros r Nr Hr. apply unlinked_independent.
    - destruct Ur as (Up & L). split; [intros I; apply in_app_iff in I; tauto|]. intros q to [(z & ->)|(z & E)]; apply L.
      + left. exists (r ++ z). now rewrite app_assoc.
      + destruct (app_comparable root q r z E) as [(u & ->)|(u & ->)]; [right|left]; now exists u.
    - intros t It. destruct (Tl t It) as (n & -> & Hn). destruct (Hr n) as (H1 & H2); [destruct Hn as [->|Hn]; [now left|now right]|].
      split; intros (z & E); [apply H1|apply H2]; exists z; apply (app_inv_head root); now rewrite E, <- app_assoc. }
  assert (Subl : forall r, ~ In $".." r -> independent fs (touched env args D) (llvm ++ r)).
  { intros r Nr. apply unlinked_independent.
    - destruct Ul as (Up & L). split; [intros I; apply in_app_iff in I; tauto|]. intros q to [(z & ->)|(z & E)]; apply L.
      + left. exists (r ++ z). now rewrite app_assoc.
      + destruct (app_comparable llvm q r z E) as [(u & ->)|(u & ->)]; [right|left]; now exists u.
    - intros t It. destruct (Ap t It) as (N1 & N2). split; intros (z & E).
      + destruct (app_comparable llvm t r z E) as [(u & ->)|(u & ->)]; [apply N1|apply N2]; now exists u.
      + apply N2. exists (r ++ z). now rewrite E, app_assoc. }
  assert (Dots : forall r : list str, existsb (str_eqb $"..") r = false -> ~ In $".." r).
  { intros r E I. assert (X : existsb (str_eqb $"..") r = true) by (apply existsb_exists; exists $".."; split; [exact I|reflexivity]). congruence. }
  split.
  - change (built (kind_of env args) []) with D. apply plain_way; [|exact Di|].
    + intros I. apply in_app_iff in I as [I|[I|[]]]; [now apply (proj1 Ur)|discriminate I].
    + intros t It (z & E). destruct (Tl t It) as (n & -> & _). unfold D in E. rewrite <- app_assoc in E. apply app_inv_head in E. discriminate E.
  - intros src I. cbn [sources In k_root k_llvm kind_of] in I. fold root llvm in I.
    assert (G : (exists r, ~ In $".." r /\ src = llvm ++ r) \/ exists r, ~ In $".." r /\ src = root ++ r
      /\ forall n, $"oclint-release" = n \/ (exists v, n = $"oclint-2" ++ v) -> ~ below [$"build"; n] r /\ ~ below r [$"build"; n]).
    { assert (Lf : forall r, existsb (str_eqb $"..") r = false -> (exists r', ~ In $".." r' /\ llvm ++ r = llvm ++ r') \/ exists r', ~ In $".." r' /\ llvm ++ r = root ++ r'
        /\ forall n, $"oclint-release" = n \/ (exists v, n = $"oclint-2" ++ v) -> ~ below [$"build"; n] r' /\ ~ below r' [$"build"; n]) by (intros r E; left; exists r; auto).
      repeat (destruct I as [<-|I]); try contradiction I; try (apply Lf; reflexivity); right; (eexists; split; [|split; [reflexivity|]]; [apply Dots; reflexivity|]);
      intros n [<-|(v & ->)]; split; intros (z & E); discriminate E. }
    destruct G as [(r & Nr & ->)|(r & Nr & -> & Hr)]; [now apply Subl|now apply Sub].
Qed.

(** ** A version can be archived once *)
Lemma ready_mono env args fs ts ts' D : (forall t, In t ts -> In t ts') -> ready env args fs ts' D -> ready env args fs ts D.
Proof.
  intros Sub (A & Al & G & Cl & (O & Di & W) & Ind).
  assert (Of : forall q, off ts' q -> off ts q) by (intros q H t It; exact (H t (Sub t It))).
  assert (Sm : forall fs', same_off ts fs fs' -> same_off ts' fs fs') by (intros fs' H q Oq; apply H, Of, Oq).
  repeat (split; [assumption|]). split.
  - split; [apply Of, O|]. split; [exact Di|]. intros fs' H. apply W, Sm, H.
  - intros src I fs' H. apply (Ind src I), Sm, H.
Qed.
Theorem c137_no_second_archive : forall env args fs cwd D n,
  ready env args fs (touched env args D) D -> ba_archive args = true -> fs (D ++ [archived env args; n]) <> None ->
  fst (bundle env args (start fs cwd)) <> Val tt.
Proof.
  intros env args fs cwd D n R Ar Fn Ok. rewrite bundle_body in Ok. rewrite Ar in Ok. cbn [when] in Ok.
  pose proof R as (Ab & _ & Git & Cl & (OD & Di & W) & _).
  assert (R1 : ready env args fs [D ++ [$"oclint-release"]] D) by (eapply ready_mono; [|exact R]; intros t [<-|[]]; now left).
  destruct (body_exact env args fs _ D R1 (or_introl eq_refl) cwd (start fs cwd) (conj eq_refl eq_refl)) as (S & _).
  unfold seq, bind in Ok. destruct (body env args (start fs cwd)) as ([u|w|] & s); try discriminate Ok. cbn [snd] in S.
  assert (FA : m_fs s (D ++ [archived env args]) = fs (D ++ [archived env args])).
  { apply S. intros t [<-|[]] (z & E). rewrite <- app_assoc in E. apply app_inv_head in E. unfold archived, version_of, developer in E. destruct (ba_release args); discriminate E. }
  assert (FD : fs (D ++ [archived env args]) = Some Directory).
  { destruct (fs (D ++ [archived env args; n])) as [e|] eqn:E; [|contradiction].
    replace (D ++ [archived env args; n]) with ((D ++ [archived env args]) ++ [n]) in E by now rewrite <- app_assoc.
    apply Cl in E as [E|E]; [destruct D; discriminate E|exact E]. }
  unfold archive, seq, bind, mv in Ok.
  destruct (place s (bundle_root_dir env)) as [a|]; [|discriminate Ok].
  destruct (place s (oclint_module_build_dir env (if ba_release args then oclint_version else oclint_dev_version env))) as [b|] eqn:Pb; [|discriminate Ok].
  assert (b = D ++ [archived env args]) as ->.
  { assert (S' : safe fs (touched env args D) s) by (intros q O; apply S; intros t [<-|[]]; apply O; now left).
    destruct (safe_D fs _ D _ _ (the_way env args fs _ D R) (or_introl eq_refl) s S') as (Fo & Dd).
    pose proof (place_of s _ _ (archived env args) D (a_path env args fs D R) ltac:(discriminate) Fo Dd) as E.
    change (place s (oclint_module_build_dir env (if ba_release args then oclint_version else oclint_dev_version env)) = Some (D ++ [archived env args])) in E.
    congruence. }
  rewrite FA, FD in Ok. destruct (m_fs s a) as [[]|]; discriminate Ok.
Qed.

(** ** A concrete machine *)
Definition dirs_closed (l : table) : bool :=
  forallb (fun x => match removelast (fst x) with [] => true | d => match fs_of l d with Some Directory => true | _ => false end end) l.
Lemma table_closed l : dirs_closed l = true -> closed (fs_of l).
Proof.
  intros H d n e F. apply table_in in F. unfold dirs_closed in H. rewrite forallb_forall in H. specialize (H _ F). cbn [fst] in H. rewrite removelast_last in H.
  destruct d as [|x d]; [now left|right]. destruct (fs_of l (x :: d)) as [[]|]; congruence.
Qed.
Definition no_links (l : table) : bool := forallb (fun x => match snd x with Symlink _ => false | _ => true end) l.
Lemma table_unlinked l src : no_links l = true -> ~ In $".." src -> unlinked (fs_of l) src.
Proof.
  intros H N. split; [exact N|]. intros q to _ F. apply table_in in F. unfold no_links in H. rewrite forallb_forall in H. specialize (H _ F). discriminate H.
Qed.
Definition long_licence : str := concat (repeat ($"all rights" ++ [NL]) 44) ++ $"except these".
(** A checkout in /src with what was built, an old bundle beside it, and LLVM in /llvm. *)
Definition case_files : table :=
  [([$"src"], Directory); ([$"src"; $"LICENSE"], Regular false $"BSD"); ([$"src"; $"build"], Directory);
   ([$"src"; $"build"; $"oclint-driver"], Directory); ([$"src"; $"build"; $"oclint-driver"; $"bin"], Directory);
   ([$"src"; $"build"; $"oclint-driver"; $"bin"; $"oclint-26.02"], Regular true $"program");
   ([$"src"; $"build"; $"oclint-rules"], Directory); ([$"src"; $"build"; $"oclint-rules"; $"rules.dl"], Directory);
   ([$"src"; $"build"; $"oclint-rules"; $"rules.dl"; $"libEmptyIf.so"], Regular true $"rule");
   ([$"src"; $"build"; $"oclint-reporters"], Directory); ([$"src"; $"build"; $"oclint-reporters"; $"reporters.dl"], Directory);
   ([$"src"; $"build"; $"oclint-reporters"; $"reporters.dl"; $"libText.so"], Regular true $"reporter");
   ([$"src"; $"build"; $"oclint-release"], Directory); ([$"src"; $"build"; $"oclint-release"; $"lib"], Directory);
   ([$"src"; $"build"; $"oclint-release"; $"lib"; $"stale"], Regular false $"old");
   ([$"llvm"], Directory); ([$"llvm"; $"LICENSE.TXT"], Regular false long_licence); ([$"llvm"; $"lib"], Directory);
   ([$"llvm"; $"lib"; $"clang"], Directory); ([$"llvm"; $"lib"; $"clang"; $"stddef.h"], Regular false $"header")].
Definition case_env : surroundings :=
  {| e_root := $"/src"; e_kernel := $"Linux"; e_kernel_version := $"6.1"; e_arch := $"x86_64"; e_git := Some $"abc";
     e_pack := fun n _ => n; e_breaks := fun _ => None |}.
Definition case_args (archive : bool) (llvm : str) : bundleargs :=
  {| ba_archive := archive; ba_docgen := false; ba_release := false; ba_llvm_root := llvm |}.
Lemma case_ready ar env : e_root env = $"/src" -> e_git env = Some $"abc" ->
  ready env (case_args ar $"/llvm") (fs_of case_files) (touched env (case_args ar $"/llvm") [$"src"; $"build"]) [$"src"; $"build"].
Proof.
  intros Er Eg. assert (En : [$"src"; $"build"] = names (e_root env) ++ [$"build"]) by now rewrite Er. rewrite En.
  apply c137_plain_checkout_is_ready.
  - now rewrite Er.
  - reflexivity.
  - rewrite Eg. intros h [= <-] I. repeat (destruct I as [I|I]; [discriminate I|]). contradiction I.
  - now apply table_closed.
  - apply table_unlinked; [reflexivity|]. rewrite Er. intros [I|[]]; discriminate I.
  - apply table_unlinked; [reflexivity|]. intros [I|[]]; discriminate I.
  - rewrite <- En. intros q r E. destruct q as [|q1 [|q2 [|q3 q]]]; [now left| | |discriminate E]; right.
    + injection E as <- _. reflexivity.
    + injection E as <- <- _. reflexivity.
  - rewrite <- En. intros t It. assert (H : exists n, t = [$"src"; $"build"; n]).
    { destruct It as [<-|It]; [eexists; reflexivity|]. destruct ar; cbn in It; [|contradiction]. destruct It as [<-|[<-|[]]]; eexists; reflexivity. }
    destruct H as (n & ->). split; intros (z & E); discriminate E.
Qed.
(** The hypotheses of the theorems hold here, also when the script may fail anywhere; without
    failures it ends well; the stale file is gone, the new ones are there. *)
Example c137_case :
  let plain := case_args false $"/llvm" in let arch := case_args true $"/llvm" in let fs := fs_of case_files in
  ready case_env plain fs (touched case_env plain [$"src"; $"build"]) [$"src"; $"build"]
  /\ ready case_env arch fs (touched case_env arch [$"src"; $"build"]) [$"src"; $"build"] /\ plain_system case_env
  /\ fst (bundle case_env plain (start fs [$"src"])) = Val tt /\ fst (bundle case_env arch (start fs [$"src"])) = Val tt
  /\ (let fs' := m_fs (snd (bundle case_env plain (start fs [$"src"]))) in
      fs' [$"src"; $"build"; $"oclint-release"; $"lib"; $"stale"] = None
      /\ fs' [$"src"; $"build"; $"oclint-release"; $"bin"; $"oclint"] = Some (Symlink $"oclint-26.02")
      /\ fs' [$"src"; $"build"; $"oclint-release"; $"bin"; $"oclint-26.02.dev.abc"] = Some (Symlink $"oclint-26.02")
      /\ fs' [$"src"; $"build"; $"oclint-release"; $"lib"; $"oclint"; $"rules"; $"libEmptyIf.so"] = Some (Regular true $"rule"))
  /\ (let fs' := m_fs (snd (bundle case_env arch (start fs [$"src"]))) in
      fs' [$"src"; $"build"; $"oclint-release"] = None
      /\ fs' [$"src"; $"build"; $"oclint-26.02.dev.abc"; $"lib"; $"clang"; $"stddef.h"] = Some (Regular false $"header")
      /\ fs' [$"src"; $"build"; $"oclint-26.02.dev.abc-x86_64-linux-6.1.tar.gz"] = Some (Regular false $"oclint-26.02.dev.abc"))
  /\ (let broken := {| e_root := $"/src"; e_kernel := $"Linux"; e_kernel_version := $"6.1"; e_arch := $"x86_64"; e_git := Some $"abc";
        e_pack := fun n _ => n; e_breaks := fun k => if Nat.eqb k 6 then Some ($"OSError", fun _ => Some Directory) else None |} in
      ready broken plain fs (touched broken plain [$"src"; $"build"]) [$"src"; $"build"]
      /\ fst (bundle broken plain (start fs [$"src"])) = Exc $"OSError"
      /\ m_fs (snd (bundle broken plain (start fs [$"src"]))) [$"src"; $"build"; $"oclint-release"; $"bin"; $"junk"] = Some Directory).
Proof.
  cbv zeta. split; [now apply case_ready|]. split; [now apply case_ready|]. split.
  { repeat split; intros I; repeat (destruct I as [I|I]; [discriminate I|]); contradiction I. }
  split; [vm_compute; reflexivity|]. split; [vm_compute; reflexivity|]. split; [vm_compute; repeat split|]. split; [vm_compute; repeat split|].
  split; [now apply case_ready|]. vm_compute. repeat split.
Qed.
(** A second archive of the same version fails: the hypotheses of the theorem are met by what the
    first leaves. *)
Theorem c137_archive_again_refuted : exists env args fs cwd,
  let first := bundle env args (start fs cwd) in
  fst first = Val tt /\ fst (bundle env args (start (m_fs (snd first)) cwd)) <> Val tt.
Proof. exists case_env, (case_args true $"/llvm"), (fs_of case_files), [$"src"]. vm_compute. split; [reflexivity|discriminate]. Qed.
(** A path to LLVM counted from the current directory names the same place and yet does not do. *)
Theorem c137_relative_llvm_refuted : exists env ar fs cwd t p q,
  opens fs cwd p t /\ opens fs cwd q t /\ fst (bundle env (case_args ar p) (start fs cwd)) = Val tt
  /\ fst (bundle env (case_args ar q) (start fs cwd)) <> Val tt.
Proof.
  exists case_env, false, (fs_of case_files), [$"src"], [$"llvm"], $"/llvm", $"../llvm".
  split; [split; [discriminate|]; change (names $"/llvm") with [$"llvm"]; apply l_down; [discriminate|reflexivity|constructor]|].
  split; [split; [discriminate|]; change (names $"../llvm") with [$".."; $"llvm"]; apply l_up; apply l_down; [discriminate|reflexivity|constructor]|].
  vm_compute. split; [reflexivity|discriminate].
Qed.
(** The bundle does not always carry the whole licence of LLVM. *)
Theorem c137_whole_licence_refuted : exists env args fs cwd D own x c x' c',
  ready env args fs (touched env args D) D /\ fst (bundle env args (start fs cwd)) = Val tt
  /\ shows fs (k_root (kind_of env args) ++ [$"LICENSE"]) [] (Regular x own) /\ shows fs (k_llvm (kind_of env args) ++ [$"LICENSE.TXT"]) [] (Regular x' c)
  /\ m_fs (snd (bundle env args (start fs cwd))) (D ++ [$"oclint-release"; $"LICENSE"]) = Some (Regular false c')
  /\ forall a b, c' <> a ++ c ++ b.
Proof.
  exists case_env, (case_args false $"/llvm"), (fs_of case_files), [$"src"], [$"src"; $"build"], $"BSD", false, long_licence, false,
    ($"BSD" ++ NL :: concat (repeat ($"all rights" ++ [NL]) 44)).
  split; [now apply case_ready|]. split; [vm_compute; reflexivity|]. split; [apply view_spec; vm_compute; reflexivity|]. split; [apply view_spec; vm_compute; reflexivity|].
  split; [vm_compute; reflexivity|]. intros a b E. apply (f_equal (@length _)) in E. rewrite !app_length in E.
  assert (L1 : length long_licence = 496) by (vm_compute; reflexivity). assert (L2 : length ($"BSD" ++ NL :: concat (repeat ($"all rights" ++ [NL]) 44)) = 488) by (vm_compute; reflexivity).
  rewrite app_length in L2. lia.
Qed.

Print Assumptions c137_machine.
Print Assumptions c137_nothing_else_changes.
Print Assumptions c137_bundle_is_complete_and_fresh.
Print Assumptions c137_archive_holds_the_bundle.
Print Assumptions c137_built_is_what_runs.
Print Assumptions c137_plain_checkout_is_ready.
Print Assumptions c137_no_second_archive.
Print Assumptions c137_archive_again_refuted.
Print Assumptions c137_relative_llvm_refuted.
Print Assumptions c137_whole_licence_refuted.

(** ** A bundle that was moved, and run *)
Lemma table_shows l src r e : no_links l = true -> ~ In $".." src -> src <> [] -> shows (fs_of l) src r e -> In (src ++ r, e) l.
Proof.
  intros N Up Ns (Nr & t & W & H). apply within_follow in W.
  assert (t = src ++ r) as ->.
  { apply (plain_follow (fs_of l) (fs_of l) 40 [] (src ++ r)) in W; [exact W|]. intros a n x E. split.
    - intros ->. assert (I : In $".." (src ++ r)) by (rewrite E; apply in_app_iff; right; now left). apply in_app_iff in I. tauto.
    - split; [reflexivity|]. intros to F. apply table_in in F. unfold no_links in N. rewrite forallb_forall in N. specialize (N _ F). discriminate N. }
  destruct H as [(H & _)|(_ & H)]; [destruct src; [contradiction|discriminate H]|]. now apply table_in.
Qed.
Definition small_files : table :=
  [([$"src"], Directory); ([$"src"; $"LICENSE"], Regular false $"BSD"); ([$"src"; $"build"], Directory);
   ([$"src"; $"build"; $"oclint-driver"], Directory); ([$"src"; $"build"; $"oclint-driver"; $"bin"], Directory);
   ([$"src"; $"build"; $"oclint-driver"; $"bin"; $"oclint-26.02"], Regular true $"program");
   ([$"src"; $"build"; $"oclint-rules"], Directory); ([$"src"; $"build"; $"oclint-rules"; $"rules.dl"], Directory);
   ([$"src"; $"build"; $"oclint-rules"; $"rules.dl"; $"libShort.so"], Regular true $"S");
   ([$"src"; $"build"; $"oclint-reporters"], Directory); ([$"src"; $"build"; $"oclint-reporters"; $"reporters.dl"], Directory);
   ([$"llvm"], Directory); ([$"llvm"; $"lib"], Directory); ([$"llvm"; $"lib"; $"clang"], Directory)].
Definition small_kind : kind := kind_of case_env {| ba_archive := false; ba_docgen := false; ba_release := true; ba_llvm_root := $"/llvm" |}.
Definition small_bundle : table :=
  [([], Directory); ([$"LICENSE"], Regular false $"BSD");
   ([$"bin"], Directory); ([$"bin"; $"oclint-26.02"], Regular true $"program"); ([$"bin"; $"oclint"], Symlink $"oclint-26.02");
   ([$"lib"], Directory); ([$"lib"; $"oclint"], Directory);
   ([$"lib"; $"oclint"; $"rules"], Directory); ([$"lib"; $"oclint"; $"rules"; $"libShort.so"], Regular true $"S");
   ([$"lib"; $"oclint"; $"reporters"], Directory); ([$"lib"; $"clang"], Directory)].
Definition opt_files : table :=
  ([$"opt"], Directory) :: ([$"w"], Directory) :: map (fun x => ([$"opt"; $"oclint"] ++ fst x, snd x)) small_bundle.
Lemma small_nothing src : view (fs_of small_files) [] src [] = None -> forall e, ~ shows (fs_of small_files) src [] e.
Proof. intros V e H. apply view_spec in H. congruence. Qed.
Lemma small_script n e : ~ script (fs_of small_files) small_kind n e.
Proof. intros [x c _ H|x c _ M _]; [|discriminate M]. revert H. apply small_nothing. vm_compute. reflexivity. Qed.
Lemma small_licence t : llvm_licence (fs_of small_files) small_kind t <-> t = None.
Proof.
  assert (N1 : forall e, ~ shows (fs_of small_files) (k_llvm small_kind ++ [$"LICENSE.TXT"]) [] e) by (apply small_nothing; vm_compute; reflexivity).
  assert (N2 : forall e, ~ shows (fs_of small_files) (k_root small_kind ++ [$"llvm"; $"LICENSE.TXT"]) [] e) by (apply small_nothing; vm_compute; reflexivity).
  split; [intros [x c H|x c _ H|_ _]; [destruct (N1 _ H)|destruct (N2 _ H)|reflexivity]|]. intros ->. now apply ll_none.
Qed.
Lemma small_bundle_belongs r e : In (r, e) small_bundle <-> belongs (fs_of small_files) small_kind r e.
Proof.
  assert (Sh : forall src r e, view (fs_of small_files) [] src r = Some e -> shows (fs_of small_files) src r e) by (intros; now apply view_spec).
  split.
  - intros I. cbn [small_bundle In] in I.
    destruct I as [I|[I|[I|[I|[I|[I|[I|[I|[I|[I|[I|[]]]]]]]]]]]]; pose proof (f_equal snd I) as E; apply (f_equal fst) in I; cbn [fst snd] in I, E; subst r e.
    + apply b_itself.
    + apply b_licence with (x := false); [apply Sh; vm_compute; reflexivity|now apply small_licence].
    + apply b_programs; [apply Sh; vm_compute; reflexivity|intros n e' H; destruct (small_script _ _ H)].
    + apply b_programs; [apply Sh; vm_compute; reflexivity|intros n e' H; destruct (small_script _ _ H)].
    + apply b_name.
    + apply b_lib.
    + apply b_lib_oclint.
    + apply b_rules, Sh. vm_compute. reflexivity.
    + apply b_rules, Sh. vm_compute. reflexivity.
    + apply b_reporters; [reflexivity|]. apply Sh. vm_compute. reflexivity.
    + apply b_headers; [reflexivity|]. apply Sh. vm_compute. reflexivity.
  - assert (Un : forall n src r e, shows (fs_of small_files) src r e -> existsb (str_eqb $"..") src = false -> length src = S n ->
        In (r, e) (map (fun x => (skipn (S n) (fst x), snd x)) (filter (fun x => path_eqb (firstn (S n) (fst x)) src) small_files))).
    { intros n src r' e' H Up Ls. apply in_map_iff. exists (src ++ r', e'). cbn [fst snd].
      assert (Sk : skipn (S n) (src ++ r') = r') by (rewrite <- Ls; apply skipn_app_exact). split; [now rewrite Sk|].
      apply filter_In. split.
      - apply table_shows; [reflexivity| | |exact H].
        + intros I. assert (X : existsb (str_eqb $"..") src = true) by (apply existsb_exists; exists $".."; split; [exact I|reflexivity]). congruence.
        + intros ->. discriminate Ls.
      - apply path_eqb_eq. cbn [fst]. rewrite <- Ls, firstn_app, Nat.sub_diag, firstn_all. apply app_nil_r. }
    intros [ |x own Ho Hn|x own c a Ho Hs Hh|r0 e0 Hv Hs| |v Hd|n e0 Sn| | |r0 e0 Hv|r0 e0 F Hv|r0 e0 F Hv|F M I|r0 e0 F M I Hv].
    + now left.
    + apply (Un 1) in Ho; [|reflexivity|reflexivity]. vm_compute in Ho. destruct Ho as [Ho|[]]. injection Ho as <- <-. right. left. reflexivity.
    + apply small_licence in Hs. discriminate Hs.
    + apply (Un 3) in Hv; [|reflexivity|reflexivity].
      change (In (r0, e0) [([], Directory); ([$"oclint-26.02"], Regular true $"program")]) in Hv. destruct Hv as [Hv|[Hv|[]]]; pose proof (f_equal snd Hv) as X; apply (f_equal fst) in Hv; cbn [fst snd] in Hv, X; subst r0 e0.
      * do 2 right. now left.
      * do 3 right. now left.
    + do 4 right. now left.
    + discriminate Hd.
    + destruct (small_script _ _ Sn).
    + do 5 right. now left.
    + do 6 right. now left.
    + apply (Un 3) in Hv; [|reflexivity|reflexivity].
      change (In (r0, e0) [([], Directory); ([$"libShort.so"], Regular true $"S")]) in Hv. destruct Hv as [Hv|[Hv|[]]]; pose proof (f_equal snd Hv) as X; apply (f_equal fst) in Hv; cbn [fst snd] in Hv, X; subst r0 e0.
      * do 7 right. now left.
      * do 8 right. now left.
    + apply (Un 3) in Hv; [|reflexivity|reflexivity]. change (In (r0, e0) [([], Directory)]) in Hv. destruct Hv as [Hv|[]]; pose proof (f_equal snd Hv) as X; apply (f_equal fst) in Hv; cbn [fst snd] in Hv, X; subst r0 e0.
      do 9 right. now left.
    + apply (Un 2) in Hv; [|reflexivity|reflexivity]. change (In (r0, e0) [([], Directory)]) in Hv. destruct Hv as [Hv|[]]; pose proof (f_equal snd Hv) as X; apply (f_equal fst) in Hv; cbn [fst snd] in Hv, X; subst r0 e0.
      do 10 right. now left.
    + discriminate M.
    + discriminate M.
Qed.
Lemma opt_is_bundle r e : fs_of opt_files ([$"opt"; $"oclint"] ++ r) = Some e <-> belongs (fs_of small_files) small_kind r e.
Proof.
  rewrite <- small_bundle_belongs. split.
  - intros F. apply table_in in F. destruct F as [F|[F|F]]; [discriminate F|discriminate F|]. apply in_map_iff in F as ((r' & e') & E & I). cbn [fst snd] in E.
    pose proof (f_equal snd E) as Es. apply (f_equal fst) in E. cbn [fst snd] in E, Es. apply app_inv_head in E. now subst r' e'.
  - intros I. cbn [small_bundle In] in I.
    destruct I as [I|[I|[I|[I|[I|[I|[I|[I|[I|[I|[I|[]]]]]]]]]]]]; pose proof (f_equal snd I) as E; apply (f_equal fst) in I; cbn [fst snd] in I, E; subst r e; reflexivity.
Qed.
Definition opt_r (p : list str) : option (list str) := Some [$"opt"; $"oclint"; $"bin"; $"oclint-26.02"].
Definition opt_world (a : str) : world :=
  {| w_list := list_of opt_files opt_r [$"w"]; w_rulelib := rulelib_of opt_files opt_r [$"w"] exi_lib;
     w_replib := fun _ => None; w_read := fun _ => None; w_yaml := w_yaml (exi_world a);
     w_env := started (can_of (fs_of opt_files) opt_r [$"w"]) [$"/opt/oclint/bin"] (Some $"/w") (Some $"/w") None a;
     w_cmdline := w_cmdline (exi_world a); w_listRules := false; w_canOpen := fun _ => true; w_accepts := fun _ => 0;
     w_rules := w_rules (exi_world a); w_driver := w_driver (exi_world a); w_hash := fun _ => 0%Z |}.
Lemma opt_resolves : resolves (fs_of opt_files) opt_r.
Proof.
  intros d n to F. assert (Dn : d = [$"opt"; $"oclint"; $"bin"] /\ to = $"oclint-26.02").
  { apply table_in in F. destruct F as [F|[F|F]]; [discriminate (f_equal snd F)|discriminate (f_equal snd F)|]. apply in_map_iff in F as ((r' & e') & E & I). cbn [fst snd] in E.
    pose proof (f_equal snd E) as Es. apply (f_equal fst) in E. cbn [fst snd] in E, Es. subst e'. cbn [small_bundle In] in I.
    destruct I as [I|[I|[I|[I|[I|[I|[I|[I|[I|[I|[I|[]]]]]]]]]]]]; try (discriminate (f_equal snd I)).
    pose proof (f_equal snd I) as Et. apply (f_equal fst) in I. cbn [fst snd] in I, Et. subst r'. apply (f_equal (@removelast _)) in E. rewrite removelast_last in E.
    split; [symmetry; exact E|]. now injection Et as <-. }
  destruct Dn as (-> & ->). eexists. split; [reflexivity|]. right. exists [], $"oclint-26.02", [$"opt"; $"oclint"; $"bin"], true, $"program".
  split; [reflexivity|]. split; [discriminate|]. split; [constructor|]. split; [right; reflexivity|]. split; reflexivity.
Qed.
(** The bundle of [small_files], in /opt/oclint by now, run by its name through PATH: the link
    leads to the program and the rule 3 of the library that was built is in force. *)
Example c137_runs_case : let fs0 := fs_of small_files in let fs := fs_of opt_files in let P := [$"opt"; $"oclint"] in
  let can := can_of fs opt_r [$"w"] in let w := opt_world $"oclint" in
  closed fs0 /\ sane fs /\ (forall r e, fs (P ++ r) = Some e <-> belongs fs0 small_kind r e)
  /\ current fs [$"w"] (Some $"/w") /\ (forall p, can p = true <-> runnable fs [$"w"] p) /\ ~ In [] [$"/opt/oclint/bin"]
  /\ executed fs [$"w"] [$"/opt/oclint/bin"] $"oclint" $"/opt/oclint/bin/oclint" /\ lies_in $"/opt/oclint/bin/oclint" $"/opt/oclint/bin"
  /\ opens fs [$"w"] $"/opt/oclint/bin" (P ++ [$"bin"]) /\ is_directory fs (P ++ [$"bin"])
  /\ w_env w = started can [$"/opt/oclint/bin"] (Some $"/w") (Some $"/w") None $"oclint"
  /\ lists_directories fs [$"w"] w /\ opens_libraries fs [$"w"] exi_lib w
  /\ exists s rules, options_are w s /\ argRulesPath s = [] /\ rules_loaded w s rules /\ In 3 rules /\ ~ In 4 rules.
Proof.
  cbv zeta. pose proof opt_resolves as R.
  assert (Cl : closed (fs_of small_files)) by now apply table_closed.
  assert (Sn : sane (fs_of opt_files)) by now apply table_sane.
  assert (Cu : current (fs_of opt_files) [$"w"] (Some $"/w")) by (split; [right; reflexivity|split; [reflexivity|apply (locate_spec _ opt_r); [exact R|reflexivity]]]).
  assert (Ca : forall p, can_of (fs_of opt_files) opt_r [$"w"] p = true <-> runnable (fs_of opt_files) [$"w"] p) by now apply can_spec.
  assert (Ne : ~ In [] [$"/opt/oclint/bin"]) by (intros [H|[]]; discriminate H).
  assert (Ns : ~ In "/"%char $"oclint") by (intros H; repeat (destruct H as [H|H]; [discriminate H|]); contradiction H).
  assert (Ex : executed (fs_of opt_files) [$"w"] [$"/opt/oclint/bin"] $"oclint" $"/opt/oclint/bin/oclint").
  { change $"/opt/oclint/bin/oclint" with (in_directory $"/opt/oclint/bin" $"oclint").
    apply (by_name _ _ _ $"oclint" [] $"/opt/oclint/bin" []); [exact Ns|reflexivity|intros e []|]. apply Ca. vm_compute. reflexivity. }
  assert (Li : lies_in $"/opt/oclint/bin/oclint" $"/opt/oclint/bin").
  { exists $"oclint". split; [discriminate|]. split; [exact Ns|]. left. split; [reflexivity|discriminate]. }
  assert (Od : opens (fs_of opt_files) [$"w"] $"/opt/oclint/bin" [$"opt"; $"oclint"; $"bin"]) by (apply (locate_spec _ opt_r); [exact R|reflexivity]).
  assert (Db : is_directory (fs_of opt_files) [$"opt"; $"oclint"; $"bin"]) by (right; reflexivity).
  assert (Ld : lists_directories (fs_of opt_files) [$"w"] (opt_world $"oclint")) by (apply (list_of_spec opt_files opt_r); [exact R|reflexivity]).
  assert (Ol : opens_libraries (fs_of opt_files) [$"w"] exi_lib (opt_world $"oclint")) by (apply (rulelib_of_spec opt_files opt_r); [exact R|reflexivity]).
  split; [exact Cl|]. split; [exact Sn|]. split; [exact opt_is_bundle|]. split; [exact Cu|]. split; [exact Ca|]. split; [exact Ne|]. split; [exact Ex|]. split; [exact Li|].
  split; [exact Od|]. split; [exact Db|]. split; [reflexivity|]. split; [exact Ld|]. split; [exact Ol|].
  assert (Op : exists s, options_are (opt_world $"oclint") s /\ argRulesPath s = []).
  { eexists. split; [eexists; split; reflexivity|]. reflexivity. }
  destruct Op as (s & Os & Rp). exists s.
  assert (Fl : leads (fs_of opt_files) [$"opt"; $"oclint"; $"lib"; $"oclint"; $"rules"] [$"libShort.so"] [$"opt"; $"oclint"; $"lib"; $"oclint"; $"rules"; $"libShort.so"])
    by (eapply (l_file _ [$"opt"; $"oclint"; $"lib"; $"oclint"; $"rules"]); [discriminate|reflexivity]).
  destruct (c136_complete_installation_loads (fs_of opt_files) [$"w"] (Some $"/w") (Some $"/w") (can_of (fs_of opt_files) opt_r [$"w"]) [$"/opt/oclint/bin"] None $"oclint" $"/opt/oclint/bin/oclint"
     $"/opt/oclint/bin" [$"opt"; $"oclint"; $"bin"] [$"opt"; $"oclint"; $"lib"; $"oclint"; $"rules"] exi_lib (opt_world $"oclint") s) as (rules & Rl); auto.
  { apply (walk_spec _ opt_r R). reflexivity. } { right. reflexivity. }
  { intros n V F. destruct (fs_of opt_files _) as [en|] eqn:E in F; [|contradiction F; reflexivity]. clear F.
    change ([$"opt"; $"oclint"; $"lib"; $"oclint"; $"rules"] ++ [n]) with ([$"opt"; $"oclint"] ++ [$"lib"; $"oclint"; $"rules"; n]) in E.
    apply opt_is_bundle, small_bundle_belongs in E. cbn [small_bundle In] in E.
    destruct E as [E|[E|[E|[E|[E|[E|[E|[E|[E|[E|[E|[]]]]]]]]]]]]; try (discriminate (f_equal fst E)).
    apply (f_equal fst) in E. cbn [fst] in E. apply (f_equal (fun l => nth 3 l [])) in E. cbn [nth] in E. subst n. eexists _, true, $"S", [3].
    split; [exact Fl|]. split; reflexivity. }
  { exists $"libShort.so". eexists _, true, $"S", 3, []. split; [intros r H; discriminate H|]. split; [exact Fl|split; reflexivity]. }
  exists rules. split; [exact Os|]. split; [exact Rp|]. split; [exact Rl|].
  destruct (c137_built_is_what_runs (fs_of small_files) small_kind Cl (fs_of opt_files) [$"opt"; $"oclint"] Sn opt_is_bundle [$"w"] (Some $"/w") (Some $"/w")
    (can_of (fs_of opt_files) opt_r [$"w"]) [$"/opt/oclint/bin"] None $"oclint" $"/opt/oclint/bin/oclint" $"/opt/oclint/bin" exi_lib (opt_world $"oclint") s rules
    Cu Ca Ne Ex Li Od Db eq_refl Ld Ol Os Rp Rl) as (_ & Hk).
  split.
  - apply Hk. exists $"libShort.so", true, $"S", [3]. split; [intros r H; discriminate H|]. split; [apply view_spec; vm_compute; reflexivity|]. split; [reflexivity|now left].
  - intros I. apply Hk in I as (n & x & c & rs & _ & Sh & Lc & I). apply b_rules, small_bundle_belongs in Sh. cbn [small_bundle In] in Sh.
    destruct Sh as [E|[E|[E|[E|[E|[E|[E|[E|[E|[E|[E|[]]]]]]]]]]]]; try (discriminate (f_equal fst E)); try (discriminate (f_equal snd E)).
    apply (f_equal snd) in E. injection E as <- <-. vm_compute in Lc. injection Lc as <-. destruct I as [I|[]]. discriminate I.
Qed.
