(** * Facts about the model of fetching LLVM *)
From Coq Require Import Permutation.
From Verif Require Import Base BaseFacts ModelScaffold ModelClang SpecClang.
Local Arguments lit : simpl never.

(** ** Paths and trees *)
Lemma path_eqb_eq a b : path_eqb a b = true <-> a = b.
Proof.
  revert b. induction a as [|x a IH]; intros [|y b]; cbn; try (split; congruence || discriminate).
  rewrite andb_true_iff, str_eqb_eq, IH. split; [intros (-> & ->); auto|intros [= -> ->]; auto].
Qed.
Lemma path_eqb_neq a b : path_eqb a b = false <-> a <> b.
Proof. rewrite <- path_eqb_eq. now destruct (path_eqb a b). Qed.
Lemma path_dec (a b : list str) : a = b \/ a <> b.
Proof. destruct (path_eqb a b) eqn:E; [left; now apply path_eqb_eq|right; now apply path_eqb_neq]. Qed.
Lemma under_spec d p : under_dir d p = true <-> exists r, p = d ++ r.
Proof.
  revert p. induction d as [|x d IH]; intros p; cbn.
  - split; eauto.
  - destruct p as [|y p]; [split; [discriminate|intros (r & [=])]|].
    rewrite andb_true_iff, str_eqb_eq, IH. split; [intros (-> & r & ->); eauto|intros (r & [= -> ->]); eauto].
Qed.
Lemma get_drop t p q : get (drop t p) q = if path_eqb p q then None else get t q.
Proof.
  induction t as [|[r e] t IH]; [cbn; now destruct (path_eqb p q)|].
  change (drop ((r, e) :: t) p) with (if negb (path_eqb r p) then (r, e) :: drop t p else drop t p).
  destruct (path_eqb r p) eqn:E; cbn [negb get].
  - rewrite IH. apply path_eqb_eq in E as ->. now destruct (path_eqb p q).
  - rewrite IH. destruct (path_eqb r q) eqn:F; auto. destruct (path_eqb p q) eqn:G; auto.
    apply path_eqb_eq in F as ->. apply path_eqb_eq in G as ->. apply path_eqb_neq in E. congruence.
Qed.
Lemma get_put t p e q : get (put t p e) q = if path_eqb p q then Some e else get t q.
Proof. unfold put. cbn [get]. destruct (path_eqb p q) eqn:E; auto. rewrite get_drop, E. reflexivity. Qed.
Lemma get_drop_tree t d q : get (drop_tree t d) q = if under_dir d q then None else get t q.
Proof.
  induction t as [|[r e] t IH]; [cbn; now destruct (under_dir d q)|].
  change (drop_tree ((r, e) :: t) d) with (if negb (under_dir d r) then (r, e) :: drop_tree t d else drop_tree t d).
  destruct (under_dir d r) eqn:E; cbn [negb get].
  - rewrite IH. destruct (path_eqb r q) eqn:F; auto. apply path_eqb_eq in F as ->. now rewrite E.
  - rewrite IH. destruct (path_eqb r q) eqn:F; auto. apply path_eqb_eq in F as ->. now rewrite E.
Qed.
Lemma get_some_in t p e : get t p = Some e -> In (p, e) t.
Proof.
  induction t as [|[r e'] t IH]; cbn; [discriminate|]. destruct (path_eqb r p) eqn:E; [|auto].
  apply path_eqb_eq in E as ->. intros [= ->]. now left.
Qed.
Lemma get_in t p e : NoDup (map fst t) -> (In (p, e) t <-> get t p = Some e).
Proof.
  intros N. split; [|apply get_some_in]. induction t as [|[r e'] t IH]; cbn; [tauto|]. inversion N; subst.
  intros [[= -> ->]|I].
  - assert (path_eqb p p = true) as -> by now apply path_eqb_eq. reflexivity.
  - destruct (path_eqb r p) eqn:E; [|auto]. apply path_eqb_eq in E as ->. exfalso. apply H1. now apply (in_map fst) in I.
Qed.
Lemma get_none t p : get t p = None <-> forall e, ~ In (p, e) t.
Proof.
  induction t as [|[r e'] t IH]; cbn; [split; auto|]. destruct (path_eqb r p) eqn:E.
  - apply path_eqb_eq in E as ->. split; [discriminate|]. intros H. exfalso. apply (H e'). now left.
  - rewrite IH. apply path_eqb_neq in E. split; intros H e; [intros [[= -> ->]|I]; [congruence|now apply (H e)]|]. intros I. apply (H e). now right.
Qed.
Lemma nodup_filter {A B} (f : A -> B) g l : NoDup (map f l) -> NoDup (map f (filter g l)).
Proof.
  induction l as [|a l IH]; cbn; [auto|]. intros N. inversion N; subst. destruct (g a); cbn; auto. constructor; auto.
  intros I. apply H1. apply in_map_iff in I as (b & <- & J). apply filter_In in J. apply in_map. tauto.
Qed.
Lemma nodup_put t p e : NoDup (map fst t) -> NoDup (map fst (put t p e)).
Proof.
  intros N. unfold put. cbn. constructor; [|now apply nodup_filter].
  intros I. apply in_map_iff in I as ((q & e') & E & J). cbn in E. subst. apply filter_In in J as (_ & J). cbn in J.
  apply negb_true_iff, path_eqb_neq in J. congruence.
Qed.
Lemma name_in_spec d p n : name_in d p = Some n <-> p = d ++ [n].
Proof.
  revert p. induction d as [|x d IH]; intros p; cbn.
  - destruct p as [|a [|b p]]; split; congruence || (intros [= <-]; auto) || discriminate.
  - destruct p as [|y p]; [split; discriminate|]. destruct (str_eqb x y) eqn:E.
    + rewrite IH. apply str_eqb_eq in E as ->. split; [intros ->; auto|intros [= ->]; auto].
    + split; [discriminate|]. intros [= -> _]. now rewrite str_eqb_refl in E.
Qed.
Lemma in_listdir t d n : In n (listdir t d) <-> exists e, In (d ++ [n], e) t.
Proof.
  unfold listdir. rewrite in_flat_map. split.
  - intros ((q & e) & I & J). cbn in J. destruct (name_in d q) as [m|] eqn:E; [|destruct J]. destruct J as [->|[]].
    apply name_in_spec in E as ->. eauto.
  - intros (e & I). exists (d ++ [n], e). split; auto. cbn. assert (name_in d (d ++ [n]) = Some n) as -> by now apply name_in_spec. now left.
Qed.
Lemma listdir_get t d n : In n (listdir t d) <-> get t (d ++ [n]) <> None.
Proof.
  rewrite in_listdir. destruct (get t (d ++ [n])) as [e|] eqn:E.
  - split; [discriminate|]. intros _. exists e. now apply get_some_in.
  - split; [|congruence]. rewrite get_none in E. intros (e & I). now apply E in I.
Qed.
Lemma nodup_listdir t d : NoDup (map fst t) -> NoDup (listdir t d).
Proof.
  induction t as [|[q e] t IH]; intros N; [constructor|]. inversion N; subst. change (listdir ((q, e) :: t) d) with
    ((match name_in d q with Some n => [n] | None => [] end) ++ listdir t d).
  destruct (name_in d q) as [n|] eqn:E; [|auto]. cbn. constructor; auto. apply name_in_spec in E as ->.
  intros I. apply in_listdir in I as (e' & I). apply H1. now apply (in_map fst) in I.
Qed.

(** ** Names *)
Lemma ends_with_spec a n : ends_with a n = true <-> exists r, n = r ++ a.
Proof.
  unfold ends_with. rewrite prefixb_spec. split.
  - intros (r & E). exists (rev r). apply (f_equal (@rev ascii)) in E. now rewrite rev_involutive, rev_app_distr, rev_involutive in E.
  - intros (r & ->). exists (rev r). now rewrite rev_app_distr.
Qed.
Lemma glob_star a b n : a <> [] -> (glob_match a b n = true <-> exists r, n = a ++ r ++ b).
Proof.
  intros Na. unfold glob_match. replace (is_nil a) with false by now destruct a. cbn. rewrite andb_true_r, andb_true_iff, prefixb_spec, ends_with_spec. split.
  - intros ((r & ->) & (q & E)). rewrite skipn_app, skipn_all, Nat.sub_diag in E. cbn in E. subst. eauto.
  - intros (r & ->). split; eauto. exists r. now rewrite skipn_app, skipn_all, Nat.sub_diag.
Qed.
Lemma glob_object n : glob_match [] $".o" n = true <-> object_name n.
Proof.
  unfold glob_match, object_name. cbn [is_nil prefixb length skipn andb]. rewrite andb_true_iff, ends_with_spec, negb_true_iff. split.
  - intros ((r & ->) & H). destruct r as [|c r]; [discriminate H|]. exists c, r. split; auto. intros ->.
    assert (prefixb $"." (("."%char :: r) ++ $".o") = true) by (apply prefixb_spec; now exists (r ++ $".o")). congruence.
  - intros (c & r & -> & N). split; [now exists (c :: r)|]. destruct (prefixb $"." _) eqn:E; auto. apply prefixb_spec in E as (q & [= E _]). congruence.
Qed.
Lemma lower_tolower c : lower c = tolower c.
Proof. destruct c as [[] [] [] [] [] [] [] []]; vm_compute; reflexivity. Qed.
Lemma begins_prefix a t : prefixb a (map tolower t) = true <-> begins a t.
Proof. unfold begins. rewrite prefixb_spec. rewrite (map_ext _ _ lower_tolower). reflexivity. Qed.
Lemma contains_spec a t : contains a t = true <-> exists l r, t = l ++ a ++ r.
Proof.
  induction t as [|c t IH].
  - cbn. rewrite orb_false_r, prefixb_spec. split; [intros (r & E); now exists [], r|]. intros (l & r & E). destruct l; [|discriminate]. eauto.
  - cbn [contains]. rewrite orb_true_iff, IH, prefixb_spec. split.
    + intros [(r & E)|(l & r & ->)]; [now exists [], r|now exists (c :: l), r].
    + intros (l & r & E). destruct l as [|d l]; [left; eauto|]. injection E as -> ->. right. eauto.
Qed.
Lemma contains_has a t : contains a (map tolower t) = true <-> has a t.
Proof. unfold has. rewrite contains_spec. rewrite (map_ext _ _ lower_tolower). reflexivity. Qed.
Lemma darwin_mac env : is_darwin env = true <-> mac env.
Proof. apply begins_prefix. Qed.
Lemma darwin_not_mac env : is_darwin env = false <-> ~ mac env.
Proof. rewrite <- darwin_mac. now destruct (is_darwin env). Qed.
Lemma arm_arm env : is_aarch64_or_arm64 env = true <-> arm env.
Proof. unfold is_aarch64_or_arm64, arm. now rewrite orb_true_iff, !begins_prefix. Qed.
Lemma find_llc_used env t : NoDup (map fst t) -> forall llc, find_llc env t = Some llc <-> llc_used env t llc.
Proof.
  intros N llc. unfold find_llc, exists_, llc_used. destruct (get t [$"bin"; $"llc"]) as [e|] eqn:E.
  - apply get_some_in in E. unfold clang_install_dir. rewrite <- app_assoc.
    change ($"/build/llvm-install" ++ $"/bin/llc") with $"/build/llvm-install/bin/llc". split; [intros [= <-]; left; eauto|].
    intros [((e' & _) & ->)|(H & _)]; auto. exfalso. apply H. eauto.
  - rewrite get_none in E. assert (X : ~ exists e, In ([$"bin"; $"llc"], e) t) by (intros (e & I); now apply E in I).
    split.
    + intros H. right. split; auto. destruct (c_which env) as [w|]; [left; auto|]. right. split; auto.
      destruct (is_darwin env) eqn:D; [|discriminate]. apply darwin_mac in D. split; auto. unfold homebrew_paths in H.
      revert H. generalize [$"/opt/homebrew/opt/llvm@21/bin/llc"; $"/opt/homebrew/opt/llvm/bin/llc"; $"/usr/local/opt/llvm@21/bin/llc"; $"/usr/local/opt/llvm/bin/llc"].
      intros l. induction l as [|p l IH]; cbn; [discriminate|]. destruct (c_elsewhere env p) eqn:P.
      * intros [= ->]. exists [], l. repeat split; auto. intros q [].
      * intros H. destruct (IH H) as (a & b & -> & Q & R). exists (p :: a), b. repeat split; auto. intros q [<-|I]; auto.
    + intros [(H & _)|(_ & [W|(W & D & a & b & L & P & Q)])]; [tauto|now rewrite W|]. rewrite W. apply darwin_mac in D as ->. unfold homebrew_paths. rewrite L. clear L.
      induction a as [|x a IH]; cbn; [now rewrite P|]. rewrite (Q x) by now left. apply IH. intros y I. apply Q. now right.
Qed.

(** ** Reasoning about the script *)
Definition hoare {A} (inv : tree -> Prop) (P : tree -> Prop) (m : M A) (Q : A -> tree -> Prop) : Prop :=
  forall s, P (s_tree s) ->
    exists new, s_moments (snd (m s)) = s_moments s ++ new /\ Forall inv new
    /\ match fst (m s) with Ok a => Q a (s_tree (snd (m s))) | Exits _ => True end.
Section H.
  Variable env : surroundings.
  Variable inv : tree -> Prop.
  Lemma h_ret {A} (a : A) (Q : A -> tree -> Prop) : hoare inv (fun t => Q a t) (ret a) Q.
  Proof. intros s H. exists []. cbn. rewrite app_nil_r. auto. Qed.
  Lemma h_bind {A B} P (m : M A) (R : A -> tree -> Prop) (f : A -> M B) Q :
    hoare inv P m R -> (forall a, hoare inv (R a) (f a) Q) -> hoare inv P (bind m f) Q.
  Proof.
    intros Hm Hf s Ps. destruct (Hm s Ps) as (n1 & E1 & I1 & R1). unfold bind. destruct (m s) as ([a|c] & s1); cbn in *.
    - destruct (Hf a s1 R1) as (n2 & E2 & I2 & R2). exists (n1 ++ n2). rewrite E2, E1, app_assoc. repeat split; auto. now apply Forall_app.
    - exists n1. auto.
  Qed.
  Lemma h_pre {A} (P P' : tree -> Prop) (m : M A) Q : (forall t, P t -> P' t) -> hoare inv P' m Q -> hoare inv P m Q.
  Proof. intros H K s Ps. apply K. auto. Qed.
  Lemma h_post {A} (P : tree -> Prop) (m : M A) (Q Q' : A -> tree -> Prop) : (forall a t, Q a t -> Q' a t) -> hoare inv P m Q -> hoare inv P m Q'.
  Proof. intros H K s Ps. destruct (K s Ps) as (n & E & I & R). exists n. repeat split; auto. destruct (m s) as ([a|c] & s'); cbn in *; auto. Qed.
  Lemma h_known {A} (P : tree -> Prop) (m : M A) Q : (forall t, P t -> hoare inv (fun t' => t' = t) m Q) -> hoare inv P m Q.
  Proof. intros H s Ps. now apply (H (s_tree s) Ps). Qed.
  Lemma h_operation P : hoare inv P (operation env) (fun _ t => P t).
  Proof. intros s H. exists []. unfold operation. destruct (c_raises env (s_ops s)); cbn; rewrite app_nil_r; auto. Qed.
  Lemma h_becomes t' (Q : unit -> tree -> Prop) : inv t' -> Q tt t' -> hoare inv (fun _ => True) (becomes t') Q.
  Proof. intros I q s _. exists [t']. cbn. auto. Qed.
  Lemma h_raise {A} P (Q : A -> tree -> Prop) : hoare inv P raise Q.
  Proof. intros s _. exists []. cbn. rewrite app_nil_r. auto. Qed.
  Lemma h_installed P : hoare inv P installed (fun a t => a = t /\ P t).
  Proof. intros s H. exists []. cbn. rewrite app_nil_r. auto. Qed.
  Lemma h_when P b (m : M unit) Q : (b = true -> hoare inv P m Q) -> (b = false -> forall t, P t -> Q tt t) -> hoare inv P (when b m) Q.
  Proof. intros H K. destruct b; cbn; [auto|]. apply h_pre with (P' := fun t => Q tt t); [exact (K eq_refl)|apply h_ret]. Qed.
  (** A loop, by what holds after the elements done. *)
  Lemma h_each {A} (l : list A) (f : A -> M unit) (J : list A -> tree -> Prop) :
    (forall before a after, l = before ++ a :: after -> hoare inv (J before) (f a) (fun _ => J (before ++ [a]))) ->
    hoare inv (J []) (each l f) (fun _ => J l).
  Proof.
    intros H. assert (G : forall after before, l = before ++ after -> hoare inv (J before) (each after f) (fun _ => J l)).
    { induction after as [|a after IH]; intros before E; cbn.
      - rewrite app_nil_r in E. rewrite E. apply (h_ret tt (fun _ => J before)).
      - eapply h_bind; [now apply H with (after := after)|]. intros ?. cbn beta. apply IH. rewrite <- app_assoc. exact E. }
    now apply G.
  Qed.
  Lemma h_rename (a b : list str) (t : tree) (Q : unit -> tree -> Prop) :
    (forall e, get t a = Some e -> e <> Dir -> inv (put (drop t a) b e) /\ Q tt (put (drop t a) b e)) ->
    hoare inv (fun t' => t' = t) (rename env a b) Q.
  Proof.
    intros H. eapply h_bind; [apply h_installed|]. intros t'. cbn. eapply h_known. intros ? (-> & ->).
    assert (K : forall e, get t a = Some e -> e <> Dir -> hoare inv (fun t' => t' = t) (do _ <- operation env;; becomes (put (drop t a) b e)) Q).
    { intros e Ge Ne. eapply h_bind; [apply h_operation|]. intros n. cbn beta. destruct (H e Ge Ne) as (X & Y).
      apply h_pre with (P' := fun _ => True); [auto|]. now apply h_becomes. }
    destruct (get t a) as [[| |]|] eqn:E; try apply h_raise; (destruct (get t b) as [[| |]|]; try apply h_raise; (apply K; [reflexivity|discriminate])).
  Qed.
  Lemma h_remove (p : list str) (t : tree) (Q : unit -> tree -> Prop) :
    (forall e, get t p = Some e -> e <> Dir -> inv (drop t p) /\ Q tt (drop t p)) ->
    hoare inv (fun t' => t' = t) (remove env p) Q.
  Proof.
    intros H. eapply h_bind; [apply h_installed|]. intros t'. cbn. eapply h_known. intros ? (-> & ->).
    assert (K : forall e, get t p = Some e -> e <> Dir -> hoare inv (fun t' => t' = t) (do _ <- operation env;; becomes (drop t p)) Q).
    { intros e Ge Ne. eapply h_bind; [apply h_operation|]. intros n. cbn beta. destruct (H e Ge Ne) as (X & Y).
      apply h_pre with (P' := fun _ => True); [auto|]. now apply h_becomes. }
    destruct (get t p) as [[| |]|] eqn:E; try apply h_raise; (eapply K; [reflexivity|discriminate]).
  Qed.
  Lemma h_rmtree (p : list str) (t : tree) (Q : unit -> tree -> Prop) :
    (get t p = Some Dir -> inv (drop_tree t p) /\ Q tt (drop_tree t p)) ->
    hoare inv (fun t' => t' = t) (rmtree env p) Q.
  Proof.
    intros H. eapply h_bind; [apply h_installed|]. intros t'. cbn. eapply h_known. intros ? (-> & ->).
    destruct (get t p) as [[| |]|] eqn:E; try apply h_raise.
    eapply h_bind; [apply h_operation|]. intros n. cbn beta. destruct (H eq_refl) as (X & Y).
    apply h_pre with (P' := fun _ => True); [auto|]. now apply h_becomes.
  Qed.
  (** Operations that leave the installation alone *)
  Lemma h_calm {A} (m : M A) (P : tree -> Prop) (Q : A -> Prop) :
    (forall s, s_tree (snd (m s)) = s_tree s /\ s_moments (snd (m s)) = s_moments s /\ match fst (m s) with Ok a => Q a | Exits _ => True end) ->
    hoare inv P m (fun a t => P t /\ Q a).
  Proof.
    intros H s Ps. destruct (H s) as (E & F & G). exists []. rewrite F, app_nil_r. repeat split; auto. destruct (fst (m s)); auto. now rewrite E.
  Qed.
End H.

(** ** The temporary directory *)
Lemma tget_tdrop d n m : tget (tdrop d n) m = if str_eqb n m then None else tget d m.
Proof.
  induction d as [|[k b] d IH]; [cbn; now destruct (str_eqb n m)|].
  change (tdrop ((k, b) :: d) n) with (if negb (str_eqb k n) then (k, b) :: tdrop d n else tdrop d n).
  destruct (str_eqb k n) eqn:E; cbn [negb tget].
  - rewrite IH. apply str_eqb_eq in E as ->. now destruct (str_eqb n m).
  - rewrite IH. destruct (str_eqb k m) eqn:F; auto. apply str_eqb_eq in F as ->. destruct (str_eqb n m) eqn:G; auto.
    apply str_eqb_eq in G as ->. now rewrite str_eqb_refl in E.
Qed.
Lemma tget_tput d n b m : tget (tput d n b) m = if str_eqb n m then Some b else tget d m.
Proof. unfold tput. cbn [tget]. destruct (str_eqb n m) eqn:E; auto. now rewrite tget_tdrop, E. Qed.
Lemma nodup_tput d n b : NoDup (map fst d) -> NoDup (map fst (tput d n b)).
Proof.
  intros N. unfold tput. cbn. constructor; [|now apply nodup_filter].
  intros I. apply in_map_iff in I as ((q & e') & E & J). cbn in E. subst. apply filter_In in J as (_ & J). cbn in J.
  apply negb_true_iff in J. now rewrite str_eqb_refl in J.
Qed.
Lemma tget_in d n b : NoDup (map fst d) -> (In (n, b) d <-> tget d n = Some b).
Proof.
  intros N. induction d as [|[k c] d IH]; cbn; [split; [tauto|discriminate]|]. inversion N; subst. destruct (str_eqb k n) eqn:E.
  - apply str_eqb_eq in E as ->. split; [intros [[= ->]|I]; auto; exfalso; apply H1; now apply (in_map fst) in I|intros [= ->]; auto].
  - rewrite <- IH by auto. split; auto. intros [[= -> ->]|I]; auto. now rewrite str_eqb_refl in E.
Qed.
Lemma tget_name d n : tget d n <> None <-> In n (map fst d).
Proof.
  induction d as [|[k c] d IH]; cbn; [split; [congruence|tauto]|]. destruct (str_eqb k n) eqn:E.
  - apply str_eqb_eq in E as ->. split; auto. discriminate.
  - rewrite IH. split; auto. intros [->|I]; auto. now rewrite str_eqb_refl in E.
Qed.
Lemma extract_spec ms : forall d, NoDup (map fst d) ->
  NoDup (map fst (fold_left (fun d (m : str * str) => tput d (fst m) (snd m)) ms d))
  /\ forall n b, tget (fold_left (fun d (m : str * str) => tput d (fst m) (snd m)) ms d) n = Some b
     <-> (exists l r, ms = l ++ (n, b) :: r /\ ~ In n (map fst r)) \/ (~ In n (map fst ms) /\ tget d n = Some b).
Proof.
  induction ms as [|[k c] ms IH]; intros d N; cbn.
  - split; auto. intros n b. split; [intros H; right; tauto|]. intros [(l & r & E & _)|(_ & H)]; auto. destruct l; discriminate.
  - destruct (IH (tput d k c) (nodup_tput d k c N)) as (U & V). split; auto. intros n b. rewrite V, tget_tput. split.
    + intros [(l & r & -> & H)|(H & G)]; [left; now exists ((k, c) :: l), r|]. destruct (str_eqb k n) eqn:E.
      * apply str_eqb_eq in E as ->. injection G as ->. left. now exists [], ms.
      * right. split; auto. intros [->|I]; auto. now rewrite str_eqb_refl in E.
    + intros [(l & r & E & H)|(H & G)].
      * destruct l as [|x l]; cbn in E; [injection E as -> -> ->; right; rewrite str_eqb_refl; auto|]. injection E as <- ->. left. eauto.
      * right. split; [tauto|]. destruct (str_eqb k n) eqn:E; auto. apply str_eqb_eq in E as ->. exfalso. apply H. now left.
Qed.
Lemma in_objects d n : In n (objects d) <-> object_name n /\ tget d n <> None.
Proof. unfold objects. rewrite filter_In, glob_object, tget_name. tauto. Qed.
Definition native_name (n : str) : Prop := exists r, n = r ++ $".native".
Lemma object_not_native n : object_name n -> ~ native_name n.
Proof.
  intros (c & r & -> & _) (q & E). apply (f_equal (@rev ascii)) in E. rewrite app_comm_cons, !rev_app_distr in E. discriminate E.
Qed.
Lemma native_inj a b : a ++ $".native" = b ++ $".native" -> a = b.
Proof. apply app_inv_tail. Qed.

Local Opaque tput tdrop tget.
Section Objects.
  Variables (env : surroundings) (llc : str) (d0 : tempdir).
  Definition changed (b b' : str) : Prop := translates env llc b b' \/ b' = b /\ refuses env llc b.
  Definition progress (processed : list str) (d : tempdir) : Prop :=
    NoDup (map fst d)
    /\ (forall n, ~ native_name n -> ~ In n processed -> tget d n = tget d0 n)
    /\ (forall n, ~ native_name n -> In n processed -> exists b b', tget d0 n = Some b /\ tget d n = Some b' /\ changed b b')
    /\ (forall o, ~ In o processed -> tget d (o ++ $".native") = None).
  Lemma try_progress processed d o : progress processed d -> ~ In o processed -> object_name o -> tget d0 o <> None ->
    forall s, s_tree (snd (try_convert_to_native env llc o d s)) = s_tree s
      /\ s_moments (snd (try_convert_to_native env llc o d s)) = s_moments s
      /\ match fst (try_convert_to_native env llc o d s) with Ok (_, d') => progress (processed ++ [o]) d' | Exits _ => True end.
  Proof.
    intros (N & U & D & F) No Oo Ho s. pose proof (object_not_native o Oo) as Nn.
    destruct (tget d0 o) as [b|] eqn:B; [|congruence]. pose proof (U o Nn No) as Bo. rewrite B in Bo.
    unfold try_convert_to_native, bind, operation. destruct (c_raises env (s_ops s)); [cbn; auto|]. rewrite Bo.
    destruct (c_llc env llc (s_ops s) b) as (ok & out) eqn:L. cbn.
    assert (Same : forall d1, NoDup (map fst d1) -> (forall n, n <> o ++ $".native" -> tget d1 n = tget d n) -> changed b b ->
      progress (processed ++ [o]) d1).
    { intros d1 N1 S1 R. split; auto. repeat split.
      - intros n Hn I. rewrite in_app_iff in I. rewrite S1; [apply U; auto|]. intros ->. apply Hn. now exists o.
      - intros n Hn I. rewrite S1 by (intros ->; apply Hn; now exists o). apply in_app_or in I as [I|[<-|[]]]; [auto|].
        exists b, b. auto.
      - intros x I. rewrite in_app_iff in I. rewrite S1; [apply F; tauto|]. intros E. apply native_inj in E as ->. apply I. right. now left. }
    destruct out as [c|].
    - assert (tget (tput d (o ++ $".native") c) (o ++ $".native") = Some c) as Tc by now rewrite tget_tput, str_eqb_refl.
      destruct ok; cbn.
      + rewrite Tc. cbn. destruct (c_raises env (S (s_ops s))); [cbn; auto|]. cbn. split; [reflexivity|]. split; [reflexivity|]. repeat split.
        * apply nodup_tput. Local Transparent tdrop. apply nodup_filter. Local Opaque tdrop. apply nodup_tput, N.
        * intros n Hn I. rewrite in_app_iff in I. rewrite tget_tput, tget_tdrop, tget_tput.
          destruct (str_eqb o n) eqn:E; [apply str_eqb_eq in E as ->; exfalso; apply I; right; now left|].
          destruct (str_eqb (o ++ $".native") n) eqn:G; [apply str_eqb_eq in G as <-; exfalso; apply Hn; now exists o|]. apply U; auto.
        * intros n Hn I. rewrite tget_tput, tget_tdrop, tget_tput. destruct (str_eqb o n) eqn:E.
          -- apply str_eqb_eq in E as <-. exists b, c. repeat split; auto. left. now exists (s_ops s).
          -- destruct (str_eqb (o ++ $".native") n) eqn:G; [apply str_eqb_eq in G as <-; exfalso; apply Hn; now exists o|].
             apply D; auto. apply in_app_or in I as [I|[<-|[]]]; auto. now rewrite str_eqb_refl in E.
        * intros x I. rewrite in_app_iff in I. rewrite tget_tput, tget_tdrop, tget_tput.
          destruct (str_eqb o (x ++ $".native")) eqn:E; [apply str_eqb_eq in E; exfalso; apply Nn; now exists x|].
          destruct (str_eqb (o ++ $".native") (x ++ $".native")) eqn:G; [reflexivity|]. apply F. tauto.
      + split; [reflexivity|]. split; [reflexivity|]. apply Same; [now apply nodup_tput| |].
        * intros n Hn. rewrite tget_tput. destruct (str_eqb _ n) eqn:E; auto. apply str_eqb_eq in E. congruence.
        * right. split; auto. exists (s_ops s). rewrite L. now left.
    - assert (R : changed b b) by (right; split; auto; exists (s_ops s); rewrite L; now right).
      rewrite (F o No). destruct ok; cbn; (split; [reflexivity|]; split; [reflexivity|]; apply Same; auto).
  Qed.
  Lemma objects_progress objs : forall processed d c, progress processed d -> NoDup (processed ++ objs) ->
    (forall o, In o objs -> object_name o /\ tget d0 o <> None) ->
    forall s, s_tree (snd (convert_objects env llc objs d c s)) = s_tree s
      /\ s_moments (snd (convert_objects env llc objs d c s)) = s_moments s
      /\ match fst (convert_objects env llc objs d c s) with Ok (_, d') => progress (processed ++ objs) d' | Exits _ => True end.
  Proof.
    induction objs as [|o objs IH]; intros processed d c P N H s.
    - cbn. rewrite app_nil_r. auto.
    - cbn [convert_objects]. unfold bind. destruct (H o) as (O1 & O2); [now left|].
      assert (No : ~ In o processed) by (apply NoDup_remove_2 in N; intros I; apply N, in_or_app; auto).
      destruct (try_progress processed d o P No O1 O2 s) as (E & F & G).
      destruct (try_convert_to_native env llc o d s) as ([(b & d')|x] & s'); cbn in E, F, G; [|cbn; auto].
      destruct (IH (processed ++ [o]) d' (if b then S c else c) G) with (s := s') as (E' & F' & G').
      + now rewrite <- app_assoc.
      + intros q I. apply H. now right.
      + cbn [fst snd]. rewrite E', F', E, F. repeat split; auto. now rewrite <- app_assoc in G'.
  Qed.
  Lemma progress_done d : NoDup (map fst d0) -> progress (objects d0) d ->
    same_members env llc (archived d0 (objects d0)) (archived d (objects d)).
  Proof.
    intros N0 (N & U & D & _).
    assert (Ob : forall d, NoDup (map fst d) -> NoDup (objects d)) by (intros; now apply NoDup_filter).
    exists (archived d (objects d0)). split.
    - unfold archived. assert (G : forall o, In o (objects d0) -> In o (objects d0)) by auto. revert G. generalize (objects d0) at 1 3 4.
      intros l. induction l as [|o l IH]; intros G; cbn; constructor.
      + assert (I : In o (objects d0)) by (apply G; now left). pose proof I as J. apply in_objects in J as (J & _).
        destruct (D o (object_not_native o J) I) as (b & b' & -> & -> & C). split; auto.
      + apply IH. intros x I. apply G. now right.
    - apply Permutation_map, NoDup_Permutation; auto. intros o. rewrite !in_objects. split.
      + intros (Oo & H). split; auto. assert (I : In o (objects d0)) by now apply in_objects.
        destruct (D o (object_not_native o Oo) I) as (b & b' & _ & -> & _). discriminate.
      + intros (Oo & H). split; auto. destruct (in_dec (list_eq_dec ascii_dec) o (objects d0)) as [I|I].
        * apply in_objects in I. tauto.
        * now rewrite (U o (object_not_native o Oo) I) in H.
  Qed.
End Objects.
Lemma kept_archived ms : kept ms (archived (extract ms) (objects (extract ms))).
Proof.
  destruct (extract_spec ms [] (NoDup_nil _)) as (N & S). fold (extract ms) in N, S. split.
  - unfold archived. rewrite map_map. cbn. rewrite map_id. now apply NoDup_filter.
  - intros (n & b). unfold archived. rewrite in_map_iff. cbn [fst]. split.
    + intros (o & [= -> <-] & I). apply in_objects in I as (Oo & H). split; auto. destruct (tget (extract ms) n) as [b|] eqn:E; [|congruence].
      apply S in E as [E|(_ & E)]; [exact E|discriminate E].
    + intros (Oo & H). assert (E : tget (extract ms) n = Some b) by (apply S; now left). exists n. rewrite E. split; auto. apply in_objects. split; auto. congruence.
Qed.
Lemma extract_tame ms : tame ms -> forall o, tget (extract ms) (o ++ $".native") = None.
Proof.
  intros T o. destruct (tget (extract ms) (o ++ $".native")) as [b|] eqn:E; auto.
  apply (extract_spec ms [] (NoDup_nil _)) in E as [(l & r & -> & _)|(_ & E)]; [|discriminate E].
  exfalso. apply (T (o ++ $".native", b)) with (r := o); auto. apply in_or_app. right. now left.
Qed.
Lemma extract_nodup ms : NoDup (map fst (extract ms)).
Proof. exact (proj1 (extract_spec ms [] (NoDup_nil _))). Qed.
(** Converting objects never touches the installation. *)
Lemma objects_calm env llc objs : forall d c s, s_tree (snd (convert_objects env llc objs d c s)) = s_tree s
  /\ s_moments (snd (convert_objects env llc objs d c s)) = s_moments s.
Proof.
  assert (T : forall o d s, s_tree (snd (try_convert_to_native env llc o d s)) = s_tree s /\ s_moments (snd (try_convert_to_native env llc o d s)) = s_moments s).
  { intros o d s. unfold try_convert_to_native, bind, operation. destruct (c_raises env (s_ops s)); [cbn; auto|].
    destruct (c_llc env llc (s_ops s) (match tget d o with Some b => b | None => [] end)) as (ok & out). cbn.
    destruct ok; [|cbn; auto]. destruct (tget (match out with Some b => tput d (o ++ $".native") b | None => d end) (o ++ $".native")); cbn; auto.
    destruct (c_raises env (S (s_ops s))); cbn; auto. }
  induction objs as [|o objs IH]; intros d c s; cbn; auto. unfold bind. destruct (T o d s) as (E & F).
  destruct (try_convert_to_native env llc o d s) as ([(b & d')|x] & s'); cbn in *; auto. rewrite <- E, <- F. apply IH.
Qed.
Lemma objects_result env llc ms c s : tame ms ->
  match fst (convert_objects env llc (objects (extract ms)) (extract ms) c s) with
  | Ok (_, d') => same_members env llc (archived (extract ms) (objects (extract ms))) (archived d' (objects d'))
  | Exits _ => True
  end.
Proof.
  intros T. pose proof (extract_nodup ms) as N.
  destruct (objects_progress env llc (extract ms) (objects (extract ms)) [] (extract ms) c) with (s := s) as (_ & _ & G).
  - split; auto. repeat split; auto; [intros n _ []|]. intros; now apply extract_tame.
  - cbn. now apply NoDup_filter.
  - intros o I. now apply in_objects in I.
  - destruct (fst _) as [(n & d')|]; auto. now apply progress_done.
Qed.
Lemma objects_counted env llc objs : tools_work env -> forall d c s,
  match fst (convert_objects env llc objs d c s) with Ok (c', _) => c' = (length objs + c)%nat | Exits _ => True end.
Proof.
  intros W. induction objs as [|o objs IH]; intros d c s; [cbn; auto|]. cbn [convert_objects length].
  unfold bind at 1. unfold try_convert_to_native, bind at 1, operation at 1. destruct (c_raises env (s_ops s)); [cbn; auto|].
  destruct (W (s_ops s)) as (_ & _ & L). destruct (L llc (match tget d o with Some b => b | None => [] end)) as (b' & ->).
  rewrite tget_tput, str_eqb_refl. unfold bind, operation. cbn [s_ops]. destruct (c_raises env (S (s_ops s))); [cbn; auto|]. unfold ret at 1. cbv beta iota.
  specialize (IH (tput (tdrop (tput d (o ++ $".native") b') (o ++ $".native")) o b') (S c)
    {| s_tree := s_tree s; s_moments := s_moments s; s_ops := S (S (s_ops s)); s_calls := s_calls s |}).
  cbn [fst snd s_tree s_moments s_calls]. destruct (fst (convert_objects env llc objs _ (S c) _)) as [(c' & d')|]; auto. lia.
Qed.
Lemma no_objects ms : objects (extract ms) = [] -> forall m, In m ms -> ~ object_name (fst m).
Proof.
  intros E m I O. assert (In (fst m) (objects (extract ms))) as H; [|rewrite E in H; destruct H].
  apply in_objects. split; auto. apply tget_name. clear E O. unfold extract.
  assert (X : forall ms d, In (fst m) (map fst d) \/ In m ms -> In (fst m) (map fst (fold_left (fun d m => tput d (fst m) (snd m)) ms d))).
  { clear ms I. induction ms as [|a ms IH]; intros d [J|J]; cbn; auto; [destruct J| |].
    - apply IH. left. apply tget_name. rewrite tget_tput. destruct (str_eqb (fst a) (fst m)); [discriminate|]. now apply tget_name.
    - apply IH. destruct J as [<-|J]; [left|now right]. apply tget_name. rewrite tget_tput, str_eqb_refl. discriminate. }
  apply X. now right.
Qed.
