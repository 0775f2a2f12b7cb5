(** * Runs of the model of fetching LLVM *)
From Coq Require Import Permutation.
From Verif Require Import Base BaseFacts ModelScaffold ModelClang SpecClang ProofClang.
Local Arguments lit : simpl never.

Lemma library_suffix n : library n -> exists r, n = r ++ $".a".
Proof. intros (m & [-> | ->]); rewrite app_assoc; eauto. Qed.
Lemma backup_not_library n : ~ library (n ++ $".bc_backup").
Proof.
  intros L. apply library_suffix in L as (r & E). apply (f_equal (@rev ascii)) in E. rewrite !rev_app_distr in E. discriminate E.
Qed.
Lemma at_lib_backup n n' : library n -> at_lib n <> backup_of n'.
Proof. intros L [= ->]. now apply backup_not_library in L. Qed.
Lemma backup_inj n n' : backup_of n = backup_of n' -> n = n'.
Proof. intros [= E]. now apply app_inv_tail in E. Qed.
Lemma path_refl p : path_eqb p p = true.
Proof. now apply path_eqb_eq. Qed.
Lemma path_ne p q : p <> q -> path_eqb p q = false.
Proof. apply path_eqb_neq. Qed.
Lemma touched_dec p : touched p \/ ~ touched p.
Proof.
  assert (LD : forall n, library n \/ ~ library n).
  { intros n. destruct (glob_match $"libclang" $".a" n || glob_match $"libLLVM" $".a" n) eqn:E.
    - left. apply orb_true_iff in E as [E|E]; apply glob_star in E as (r & ->); try discriminate; exists r; auto.
    - right. intros (m & [-> | ->]); apply orb_false_iff in E as (E & F).
      + assert (glob_match $"libclang" $".a" ($"libclang" ++ m ++ $".a") = true) by (apply glob_star; [discriminate|eauto]). congruence.
      + assert (glob_match $"libLLVM" $".a" ($"libLLVM" ++ m ++ $".a") = true) by (apply glob_star; [discriminate|eauto]). congruence. }
  destruct p as [|a [|b [|c p]]]; try solve [right; intros (n & _ & [[=]|[=]])].
  destruct (str_eqb a $"lib") eqn:A; [apply str_eqb_eq in A as ->|right; intros (n & _ & [[= -> _]|[= -> _]]); now rewrite str_eqb_refl in A].
  destruct (LD b) as [L|L]; [left; exists b; auto|].
  destruct (ends_with $".bc_backup" b) eqn:E.
  - apply ends_with_spec in E as (n & ->). destruct (LD n) as [K|K]; [left; exists n; auto|].
    right. intros (m & Lm & [[= <-]|[= E]]); [auto|]. apply app_inv_tail in E as ->. auto.
  - right. intros (m & Lm & [[= ->]|[= ->]]); [auto|]. assert (ends_with $".bc_backup" (m ++ $".bc_backup") = true) by (apply ends_with_spec; eauto). congruence.
Qed.

Lemma h_assoc {A B C} inv P (m : M A) (f : A -> M B) (g : B -> M C) Q :
  hoare inv P (bind (bind m f) g) Q -> hoare inv P (bind m (fun a => bind (f a) g)) Q.
Proof. intros H s Ps. specialize (H s Ps). revert H. unfold bind. destruct (m s) as ([a|c] & s'); auto. Qed.

Section Run.
  Variables (env : surroundings) (t1 : tree).
  Hypothesis N1 : NoDup (map fst t1).

  Definition safe (t : tree) : Prop :=
    NoDup (map fst t)
    /\ (forall n, library n -> forall e, get t1 (at_lib n) = Some e ->
          get t (at_lib n) = Some e \/ get t (backup_of n) = Some e
          \/ exists ms ms', e = Lib ms /\ get t (at_lib n) = Some (Lib ms') /\ conversion env t1 ms ms')
    /\ forall p, ~ touched p -> get t p = get t1 p \/ (mac env /\ bundled_cxx p /\ get t p = None).
  Definition as_it_was (e e' : option file) : Prop :=
    e' = e \/ exists ms ms', e = Some (Lib ms) /\ e' = Some (Lib ms') /\ conversion env t1 ms ms'.
  Definition good (processed : list str) (t : tree) : Prop :=
    NoDup (map fst t)
    /\ (forall n, library n -> ~ In n processed -> get t (at_lib n) = get t1 (at_lib n) /\ get t (backup_of n) = get t1 (backup_of n))
    /\ (forall n, library n -> as_it_was (get t1 (at_lib n)) (get t (at_lib n)))
    /\ (forall n, library n -> get t (backup_of n) = get t1 (backup_of n) \/ get t (backup_of n) = None)
    /\ (forall p, ~ touched p -> get t p = get t1 p)
    /\ (forall n ms, library n -> In n processed -> get t1 (at_lib n) = Some (Lib ms) -> tools_work env ->
          (forall m, In m ms -> ~ object_name (fst m))
          \/ exists ms', get t (at_lib n) = Some (Lib ms') /\ conversion env t1 ms ms').
  Lemma good_start : good [] t1.
  Proof. split; auto. repeat split; auto; try (intros; now left). Qed.
  Lemma good_more l n t : good l t ->
    (forall ms, get t1 (at_lib n) = Some (Lib ms) -> tools_work env -> forall m, In m ms -> ~ object_name (fst m)) -> good (l ++ [n]) t.
  Proof.
    intros (A & B & C & D & E & F) Q. split; auto. split; [intros m L I; apply B; auto; intros J; apply I, in_or_app; auto|]. split; auto. split; auto. split; auto.
    intros m ms L I. apply in_app_or in I as [I|[<-|[]]]; [now apply F|]. intros H W. left. eauto.
  Qed.
  Lemma good_safe l t : good l t -> safe t.
  Proof.
    intros (A & B & C & D & E & _). split; auto. split; [|auto]. intros n L e G. destruct (C n L) as [H|(ms & ms' & H & K & V)].
    - left. congruence.
    - right. right. exists ms, ms'. repeat split; auto. congruence.
  Qed.
  (** Only the entries of one library differ. *)
  Definition elsewhere_same (n : str) (t t' : tree) : Prop := forall p, p <> at_lib n -> p <> backup_of n -> get t' p = get t p.
  Lemma safe_step l t n t' ms : good l t -> library n -> get t1 (at_lib n) = Some (Lib ms) -> NoDup (map fst t') -> elsewhere_same n t t' ->
    (get t' (at_lib n) = Some (Lib ms) \/ get t' (backup_of n) = Some (Lib ms)
     \/ exists ms', get t' (at_lib n) = Some (Lib ms') /\ conversion env t1 ms ms') -> safe t'.
  Proof.
    intros G L E1 N' S H. split; auto. split.
    - intros m Lm e Ge. destruct (list_eq_dec ascii_dec m n) as [->|Ne].
      + rewrite E1 in Ge. injection Ge as <-. destruct H as [H|[H|(ms' & H & V)]]; auto. right. right. eauto.
      + destruct (good_safe l t G) as (_ & K & _). specialize (K m Lm e Ge). rewrite (S (at_lib m)), (S (backup_of m)); auto.
        * intros Q. symmetry in Q. now apply (at_lib_backup n m) in Q.
        * intros Q. now apply backup_inj in Q.
        * intros Q. now injection Q.
        * now apply at_lib_backup.
    - intros p T. left. destruct G as (_ & _ & _ & _ & G & _). rewrite S; [auto| |]; intros ->; apply T; exists n; auto.
  Qed.
  Lemma good_step l t n t' ms : good l t -> library n -> get t1 (at_lib n) = Some (Lib ms) -> NoDup (map fst t') -> elsewhere_same n t t' ->
    (get t' (at_lib n) = Some (Lib ms) /\ ~ tools_work env \/ exists ms', get t' (at_lib n) = Some (Lib ms') /\ conversion env t1 ms ms') ->
    get t' (backup_of n) = None -> good (l ++ [n]) t'.
  Proof.
    intros (A & B & C & D & E & F) L E1 N' S H K.
    assert (S1 : forall m, library m -> m <> n -> get t' (at_lib m) = get t (at_lib m)).
    { intros m Lm Ne. apply S; [intros [= ->]; auto|now apply at_lib_backup]. }
    assert (S2 : forall m, library m -> m <> n -> get t' (backup_of m) = get t (backup_of m)).
    { intros m Lm Ne. apply S; [intros Q; symmetry in Q; now apply at_lib_backup in Q|intros Q; now apply backup_inj in Q]. }
    split; auto. repeat split.
    - rewrite S1; auto; [apply B; auto|]; [intros X|intros ->]; apply H1, in_or_app; [now left|right; now left].
    - rewrite S2; auto; [apply B; auto|]; [intros X|intros ->]; apply H1, in_or_app; [now left|right; now left].
    - intros m Lm. destruct (list_eq_dec ascii_dec m n) as [->|Ne]; [|rewrite S1; auto].
      rewrite E1. destruct H as [(H & _)|(ms' & H & V)]; [left; auto|right; eauto].
    - intros m Lm. destruct (list_eq_dec ascii_dec m n) as [->|Ne]; [auto|rewrite S2; auto].
    - intros p T. rewrite S; [auto| |]; intros ->; apply T; exists n; auto.
    - intros m ms0 Lm I Em W. destruct (list_eq_dec ascii_dec m n) as [->|Ne].
      + rewrite E1 in Em. injection Em as <-. destruct H as [(_ & H)|H]; [contradiction|now right].
      + apply in_app_or in I as [I|[I|[]]]; [|congruence]. destruct (F m ms0 Lm I Em W) as [Z|(ms' & Z & V)]; [now left|right]. exists ms'. split; auto.
        rewrite S; auto; [intros Q; now injection Q|].
        now apply at_lib_backup.
  Qed.

  Ltac paths := repeat (rewrite ?get_put, ?get_drop, ?path_refl;
    try match goal with
        | H : ?p <> ?q |- context [path_eqb ?p ?q] => rewrite (path_ne p q H)
        | H : ?q <> ?p |- context [path_eqb ?p ?q] => rewrite (path_ne p q (not_eq_sym H))
        end).

  Lemma convert_one llc l n : library n -> ~ In n l -> llc_used env t1 llc ->
    hoare safe (good l) (convert_library env llc n) (fun _ => good (l ++ [n])).
  Proof.
    intros L Nl U. eapply h_bind; [apply h_operation|]. intros k. cbn beta. eapply h_bind; [apply h_installed|]. intros t. cbn beta.
    apply h_known. intros t' (-> & G).
    assert (Skip : (forall ms, get t1 (at_lib n) = Some (Lib ms) -> tools_work env -> forall m, In m ms -> ~ object_name (fst m)) ->
              hoare safe (fun t0 => t0 = t') (ret tt) (fun _ => good (l ++ [n]))).
    { intros Q. apply h_pre with (P' := fun t => (fun (_ : unit) => good (l ++ [n])) tt t); [intros t -> ; now apply good_more|apply (h_ret safe tt (fun _ => good (l ++ [n])))]. }
    change [$"lib"; n] with (at_lib n). change [$"lib"; n ++ $".bc_backup"] with (backup_of n).
    pose proof (proj1 (proj1 (proj2 G) n L Nl)) as G1. pose proof (at_lib_backup n n L) as Ne. pose proof (proj1 G) as N.
    destruct (get t' (at_lib n)) as [[| |ms]|] eqn:E; try (apply Skip; congruence).
    destruct (c_ar_x env k) eqn:Ex; [|apply Skip; intros ? _ W; destruct (W k) as (X & _); congruence]. symmetry in G1.
    eapply h_bind with (R := fun r t => t = t' /\ conversion env t1 ms (archived (snd r) (objects (snd r))) /\ (tools_work env -> fst r = length (objects (extract ms)))).
    - intros s Es. destruct (objects_calm env llc (objects (extract ms)) (extract ms) 0 s) as (F1 & F2).
      exists []. rewrite F2, app_nil_r. split; auto. split; auto.
      pose proof (objects_result env llc ms 0 s) as V. pose proof (fun W => objects_counted env llc (objects (extract ms)) W (extract ms) 0 s) as W. destruct (fst (convert_objects env llc (objects (extract ms)) (extract ms) 0 s)) as [(c & d)|]; auto.
      split; [congruence|]. split; [intros T; exists llc, (archived (extract ms) (objects (extract ms))); split; auto; split; [apply kept_archived|now apply V]|].
      cbn [fst]. intros Q. rewrite (W Q). lia.
    - intros (c & d). cbn [fst snd]. set (ms' := archived d (objects d)). apply h_known. intros ? (-> & V & Count).
      apply h_when; [intros _|intros Z ? ->; apply good_more; auto].
      2:{ intros ms0 E0 W. assert (ms0 = ms) as -> by congruence. apply no_objects. apply Nat.ltb_ge in Z. rewrite (Count W) in Z. destruct (objects (extract ms)); [auto|cbn in Z; lia]. }
      set (t2 := put (drop t' (at_lib n)) (backup_of n) (Lib ms)).
      assert (N2 : NoDup (map fst t2)) by (apply nodup_put; unfold drop; now apply nodup_filter).
      assert (S2 : elsewhere_same n t' t2) by (intros p P Q; unfold t2; paths; auto).
      assert (B2 : get t2 (backup_of n) = Some (Lib ms)) by (unfold t2; paths; auto).
      assert (Any : forall o, safe (match o with Some b => put t2 (at_lib n) (Plain b) | None => t2 end)).
      { intros o. apply (safe_step l t' n _ ms G L G1).
        - destruct o; auto. now apply nodup_put.
        - intros p P Q. destruct o; paths; auto.
        - right. left. destruct o; paths; auto. }
      eapply h_bind with (R := fun _ t => t = t2).
      + apply h_rename. intros e Ee _. rewrite E in Ee. injection Ee as <-. split; auto. apply (Any None).
      + intros []. eapply h_bind with (R := fun ok t => NoDup (map fst t) /\ elsewhere_same n t' t /\ get t (backup_of n) = Some (Lib ms)
                                                 /\ (ok = true -> get t (at_lib n) = Some (Lib ms')) /\ (ok = false -> ~ tools_work env)).
        * unfold ar_r. eapply h_bind; [apply h_operation|]. intros j. cbn beta. eapply h_bind; [apply h_installed|]. intros t. cbn beta.
          apply h_known. intros ? (-> & ->). destruct (c_ar_r env j) as ((ok & meanwhile) & remains) eqn:Ej.
          eapply h_bind with (R := fun _ _ => True).
          -- apply h_pre with (P' := fun _ => True); [auto|]. apply h_becomes; [apply Any|exact Logic.I].
          -- intros []. eapply h_bind with (R := fun _ t => NoDup (map fst t) /\ elsewhere_same n t' t /\ get t (backup_of n) = Some (Lib ms)
                                                 /\ (ok = true -> get t (at_lib n) = Some (Lib ms')) /\ (ok = false -> ~ tools_work env)).
             ++ apply h_becomes.
                ** destruct ok; [|apply Any]. apply (safe_step l t' n _ ms G L G1); [now apply nodup_put|intros p P Q; paths; auto|]. right. left. paths. auto.
                ** destruct ok.
                   --- repeat split; [now apply nodup_put|intros p P Q; paths; auto|paths; auto|intros _; paths; auto|discriminate].
                   --- repeat split; [destruct remains; auto; now apply nodup_put|intros p P Q; destruct remains; paths; auto|destruct remains; paths; auto|discriminate|intros _ W; destruct (W j) as (_ & X & _); rewrite Ej in X; discriminate].
             ++ intros []. apply (h_ret safe ok (fun ok t => NoDup (map fst t) /\ elsewhere_same n t' t /\ get t (backup_of n) = Some (Lib ms)
                                                 /\ (ok = true -> get t (at_lib n) = Some (Lib ms')) /\ (ok = false -> ~ tools_work env))).
        * intros ok. apply h_known. intros t3 (N3 & S3 & B3 & O3 & W3). destruct ok.
          -- apply h_remove. intros e _ _.
             assert (X : good (l ++ [n]) (drop t3 (backup_of n))).
             { apply (good_step l t' n _ ms G L G1); [unfold drop; now apply nodup_filter|intros p P Q; paths; auto| |paths; auto].
               right. exists ms'. split; auto. paths. auto. }
             split; [now apply good_safe with (l := l ++ [n])|exact X].
          -- apply h_rename. intros e Ee _. rewrite B3 in Ee. injection Ee as <-.
             assert (X : good (l ++ [n]) (put (drop t3 (backup_of n)) (at_lib n) (Lib ms))).
             { apply (good_step l t' n _ ms G L G1); [apply nodup_put; unfold drop; now apply nodup_filter|intros p P Q; paths; auto| |paths; auto].
               left. split; auto. paths. auto. }
             split; [now apply good_safe with (l := l ++ [n])|exact X].
  Qed.
  Lemma nodup_app {A} (l r : list A) : NoDup l -> NoDup r -> (forall x, In x l -> ~ In x r) -> NoDup (l ++ r).
  Proof.
    induction l as [|a l IH]; cbn; auto. intros N M D. inversion N; subst. constructor.
    - intros I. apply in_app_or in I as [I|I]; auto. apply (D a); auto.
    - apply IH; auto.
  Qed.
  Lemma convert_all : hoare safe (fun t => t = t1) (convert_bitcode_libraries env)
    (fun _ t => (exists l, good l t /\ (forall llc, llc_used env t1 llc -> forall n, library n -> get t1 (at_lib n) <> None -> In n l))
                /\ ((forall llc, ~ llc_used env t1 llc) -> t = t1)).
  Proof.
    eapply h_bind; [apply h_installed|]. intros t. cbn beta. apply h_known. intros ? (-> & ->).
    destruct (find_llc env t1) as [llc|] eqn:F.
    - apply find_llc_used in F as U; auto. unfold glob.
      eapply h_bind with (R := fun a t => a = filter (glob_match $"libclang" $".a") (listdir t1 [$"lib"]) /\ t = t1).
      { eapply h_bind; [apply h_installed|]. intros t. cbn beta. apply h_known. intros ? (-> & ->).
        apply h_pre with (P' := fun t => (fun a t => a = filter (glob_match $"libclang" $".a") (listdir t1 [$"lib"]) /\ t = t1) (filter (glob_match $"libclang" $".a") (listdir t1 [$"lib"])) t); [auto|apply (h_ret safe (filter (glob_match $"libclang" $".a") (listdir t1 [$"lib"])) (fun a t => a = filter (glob_match $"libclang" $".a") (listdir t1 [$"lib"]) /\ t = t1))]. }
      intros l1. cbn beta. apply h_known. intros ? (-> & ->).
      eapply h_bind with (R := fun a t => a = filter (glob_match $"libLLVM" $".a") (listdir t1 [$"lib"]) /\ t = t1).
      { eapply h_bind; [apply h_installed|]. intros t. cbn beta. apply h_known. intros ? (-> & ->).
        apply h_pre with (P' := fun t => (fun a t => a = filter (glob_match $"libLLVM" $".a") (listdir t1 [$"lib"]) /\ t = t1) (filter (glob_match $"libLLVM" $".a") (listdir t1 [$"lib"])) t); [auto|apply (h_ret safe (filter (glob_match $"libLLVM" $".a") (listdir t1 [$"lib"])) (fun a t => a = filter (glob_match $"libLLVM" $".a") (listdir t1 [$"lib"]) /\ t = t1))]. }
      intros l2. cbn beta. apply h_known. intros ? (-> & ->).
      set (libs := filter (glob_match $"libclang" $".a") (listdir t1 [$"lib"]) ++ filter (glob_match $"libLLVM" $".a") (listdir t1 [$"lib"])).
      apply h_post with (Q := fun _ => good libs); [intros _ t G; split; [exists libs; split; [exact G|]|intros H; now apply H in U]|].
      { intros llc' _ n (r & Ln) Gn. apply in_or_app. assert (In n (listdir t1 [$"lib"])) by (apply listdir_get; exact Gn).
        destruct Ln as [-> | ->]; [left|right]; apply filter_In; split; auto; apply glob_star; try discriminate; eauto. }
      apply h_pre with (P' := good []); [intros ? ->; apply good_start|].
      assert (Nl : NoDup libs).
      { apply nodup_app; try (apply NoDup_filter, nodup_listdir, N1). intros x I J. apply filter_In in I as (_ & I). apply filter_In in J as (_ & J).
        apply glob_star in I as (r & ->); [|discriminate]. apply glob_star in J as (q & J); discriminate. }
      apply h_each. intros before n after El. apply convert_one; auto.
      + assert (I : In n libs) by (rewrite El; apply in_or_app; right; now left). unfold libs in I.
        apply in_app_or in I as [I|I]; apply filter_In in I as (_ & I); apply glob_star in I as (r & ->); try discriminate; exists r; auto.
      + rewrite El in Nl. apply NoDup_remove_2 in Nl. intros I. apply Nl, in_or_app. now left.
    - apply h_pre with (P' := fun t => (fun (_ : unit) t => (exists l, good l t /\ (forall llc, llc_used env t1 llc -> forall n, library n -> get t1 (at_lib n) <> None -> In n l)) /\ ((forall llc, ~ llc_used env t1 llc) -> t = t1)) tt t); [|apply (h_ret safe tt (fun (_ : unit) t => (exists l, good l t /\ (forall llc, llc_used env t1 llc -> forall n, library n -> get t1 (at_lib n) <> None -> In n l)) /\ ((forall llc, ~ llc_used env t1 llc) -> t = t1)))].
      intros ? ->. split; [exists []; split; [apply good_start|]|auto]. intros llc U. apply find_llc_used in U; auto. congruence.
  Qed.

  (** ** Removing what macOS brings itself *)
  Section Mac.
  Variable t2 : tree.
  Hypothesis (Mac : mac env) (G2 : exists l, good l t2).
  Hypothesis closed : forall p n e, In (p ++ [n], e) t1 -> p = [] \/ In (p, Dir) t1.
  Definition removed (S : list str -> bool) (t : tree) : Prop :=
    NoDup (map fst t) /\ forall p, get t p = if S p then None else get t2 p.
  Lemma untouched_cxx p : bundled_cxx p -> ~ touched p.
  Proof.
    intros B (n & (m & L) & T).
    destruct B as [(r & [-> | ->])|[(r & ->)|(e & r & -> & _)]]; destruct T as [T|T]; try discriminate T; injection T as T; destruct L as [-> | ->]; discriminate T.
  Qed.
  Lemma removed_safe S t : (forall p, S p = true -> bundled_cxx p) -> removed S t -> safe t.
  Proof.
    intros B (N & R). destruct G2 as (l & G). destruct (good_safe l t2 G) as (_ & K & _). split; auto. split.
    - intros n L e E. assert (X : forall q, touched q -> get t q = get t2 q).
      { intros q T. rewrite R. destruct (S q) eqn:Q; auto. apply B in Q. now apply untouched_cxx in Q. }
      rewrite !X; [now apply K| |]; exists n; auto.
    - intros p T. rewrite R. destruct (S p) eqn:E; [right; auto|left]. destruct G as (_ & _ & _ & _ & G & _). auto.
  Qed.
  Lemma removed_ext S S' t : (forall p, get t2 p <> None -> S p = S' p) -> removed S t -> removed S' t.
  Proof.
    intros H (N & R). split; auto. intros p. rewrite R. destruct (get t2 p) eqn:E; [rewrite H; [reflexivity|congruence]|]. now destruct (S p), (S' p).
  Qed.
  Definition lib_named (before : str) (p : list str) : bool :=
    match p with [a; n] => str_eqb a $"lib" && prefixb before n | _ => false end.
  Lemma lib_named_spec a p : lib_named a p = true <-> exists r, p = [$"lib"; a ++ r].
  Proof.
    destruct p as [|x [|n [|y p]]]; cbn; try (split; [discriminate|intros (r & [=])]).
    rewrite andb_true_iff, str_eqb_eq, prefixb_spec. split; [intros (-> & r & ->); eauto|intros (r & [= -> ->]); eauto].
  Qed.
  Lemma remove_glob S before : before <> [] -> (forall p, S p = true -> bundled_cxx p) -> (forall r, bundled_cxx [$"lib"; before ++ r]) ->
    hoare safe (removed S) (do l <- glob [$"lib"] before [];; each l (fun n => remove env [$"lib"; n]))
      (fun _ => removed (fun p => S p || lib_named before p)).
  Proof.
    intros Nb B C. apply h_known. intros t R. unfold glob.
    eapply h_bind with (R := fun a t' => a = filter (glob_match before []) (listdir t [$"lib"]) /\ t' = t).
    { eapply h_bind; [apply h_installed|]. intros t'. cbn beta. apply h_known. intros ? (-> & ->).
      apply h_pre with (P' := fun t' => (fun a t' => a = filter (glob_match before []) (listdir t [$"lib"]) /\ t' = t) (filter (glob_match before []) (listdir t [$"lib"])) t'); [auto|apply (h_ret safe (filter (glob_match before []) (listdir t [$"lib"])) (fun a t' => a = filter (glob_match before []) (listdir t [$"lib"]) /\ t' = t))]. }
    intros l. cbn beta. apply h_known. intros ? (-> & ->). set (l := filter (glob_match before []) (listdir t [$"lib"])).
    assert (Il : forall n, In n l -> exists r, n = before ++ r).
    { intros n I. apply filter_In in I as (_ & I). apply glob_star in I as (r & ->); auto. exists r. now rewrite app_nil_r. }
    set (J := fun done => removed (fun p => S p || existsb (path_eqb p) (map at_lib done))).
    apply h_post with (Q := fun _ => J l).
    - intros _ t'. apply removed_ext. intros p Hp. destruct (S p) eqn:Sp; cbn; auto. destruct (lib_named before p) eqn:Lp.
      + apply lib_named_spec in Lp as (r & ->). apply existsb_exists. exists (at_lib (before ++ r)). split; [|apply path_refl]. apply in_map. apply filter_In. split.
        * apply listdir_get. change ([$"lib"] ++ [before ++ r]) with [$"lib"; before ++ r]. destruct R as (_ & R). rewrite R, Sp. auto.
        * apply glob_star; auto. exists r. now rewrite app_nil_r.
      + destruct (existsb _ _) eqn:E; auto. apply existsb_exists in E as (q & I & Q). apply path_eqb_eq in Q as <-. apply in_map_iff in I as (n & <- & I).
        apply Il in I as (r & ->). assert (lib_named before (at_lib (before ++ r)) = true) by (apply lib_named_spec; now exists r). congruence.
    - apply h_pre with (P' := J []); [intros ? ->; unfold J; cbn; eapply removed_ext; [|exact R]; intros; now rewrite orb_false_r|].
      apply h_each. intros done n after El. apply h_known. intros t' Rt. apply h_remove. intros e _ _. change [$"lib"; n] with (at_lib n).
      assert (X : J (done ++ [n]) (drop t' (at_lib n))).
      { destruct Rt as (N & Rt). split; [unfold drop; now apply nodup_filter|]. intros p. rewrite get_drop, Rt, map_app, existsb_app. cbn [map existsb].
        destruct (path_eqb (at_lib n) p) eqn:E.
        - apply path_eqb_eq in E as <-. now rewrite path_refl, !orb_true_r.
        - assert (path_eqb p (at_lib n) = false) as -> by (apply path_eqb_neq in E; apply path_eqb_neq; congruence). now rewrite !orb_false_r. }
      split; auto. eapply removed_safe; [|exact X]. cbn beta. intros p Hp. apply orb_true_iff in Hp as [Hp|Hp]; auto.
      apply existsb_exists in Hp as (q & I & Q). apply path_eqb_eq in Q as <-. apply in_map_iff in I as (m & <- & I).
      destruct (Il m) as (r & ->); [|apply C]. rewrite El. apply in_app_or in I as [I|[<-|[]]]; apply in_or_app; [now left|right; now left].
  Qed.
  Lemma include_closed r : forall d, get t2 (($"include" :: d) ++ r) <> None -> r <> [] -> get t2 ($"include" :: d) = Some Dir.
  Proof.
    destruct G2 as (l & _ & _ & _ & _ & U & _).
    assert (I : forall d, get t2 ($"include" :: d) = get t1 ($"include" :: d)) by (intros d; apply U; intros (n & _ & [[=]|[=]])).
    induction r as [|n r IH] using rev_ind; [congruence|]. intros d H _.
    assert (Q : ($"include" :: d) ++ r ++ [n] = ($"include" :: d ++ r) ++ [n]) by (cbn; now rewrite app_assoc). rewrite Q in H. clear Q.
    rewrite <- app_comm_cons, I, app_comm_cons in H. destruct (get t1 (($"include" :: d ++ r) ++ [n])) as [e|] eqn:E; [|congruence].
    apply get_some_in in E. apply closed in E as [E|E]; [discriminate|]. apply (proj1 (get_in t1 _ _ N1)) in E.
    destruct r as [|x r]; [rewrite app_nil_r in E; now rewrite I|]. apply IH; [|discriminate]. rewrite <- app_comm_cons, I, E. discriminate.
  Qed.
  Lemma remove_if S d : (forall p, S p = true -> bundled_cxx p) -> (forall r, bundled_cxx (($"include" :: d) ++ r)) ->
    (forall r, S ($"include" :: d) = true -> S (($"include" :: d) ++ r) = true) ->
    hoare safe (removed S) (do t <- installed;; when (exists_ t ($"include" :: d)) (rmtree env ($"include" :: d)))
      (fun _ => removed (fun p => S p || under_dir ($"include" :: d) p)).
  Proof.
    intros B C Up. eapply h_bind; [apply h_installed|]. intros t. cbn beta. apply h_known. intros t' (-> & R). apply h_when; intros X.
    - apply h_rmtree. intros _. assert (Y : removed (fun p => S p || under_dir ($"include" :: d) p) (drop_tree t' ($"include" :: d))).
      { destruct R as (N & R). split; [unfold drop_tree; now apply nodup_filter|]. intros p. rewrite get_drop_tree, R. destruct (under_dir ($"include" :: d) p); [now rewrite orb_true_r|now rewrite orb_false_r]. }
      split; auto. eapply removed_safe; [|exact Y]. intros p H. apply orb_true_iff in H as [H|H]; auto. apply under_spec in H as (r & ->). apply C.
    - intros ? ->. eapply removed_ext; [|exact R]. intros p Hp. destruct (under_dir ($"include" :: d) p) eqn:E; [|now rewrite orb_false_r]. rewrite orb_true_r.
      apply under_spec in E as (r & ->). unfold exists_ in X. destruct (get t' ($"include" :: d)) eqn:Gd; [discriminate|]. destruct R as (_ & R). rewrite R in Gd.
      destruct (S ($"include" :: d)) eqn:Sd; [now apply Up|]. destruct r as [|n r]; [rewrite app_nil_r in Hp; congruence|].
      apply include_closed in Hp; [congruence|discriminate].
  Qed.
  Definition of_apple (e : str) : bool := contains $"apple" (map tolower e) || contains $"darwin" (map tolower e).
  Lemma of_apple_spec e : of_apple e = true <-> has $"apple" e \/ has $"darwin" e.
  Proof. unfold of_apple. rewrite orb_true_iff, !contains_has. reflexivity. Qed.
  Definition platform_cxx (p : list str) : bool :=
    match p with a :: e :: c :: _ => str_eqb a $"include" && str_eqb c $"c++" && of_apple e | _ => false end.
  Lemma platform_spec p : platform_cxx p = true <-> exists e r, p = $"include" :: e :: $"c++" :: r /\ (has $"apple" e \/ has $"darwin" e).
  Proof.
    destruct p as [|a [|e [|c p]]]; cbn; try (split; [discriminate|intros (e' & r & [=] & _)]).
    rewrite !andb_true_iff, !str_eqb_eq, of_apple_spec. split; [intros ((-> & ->) & H); eauto|intros (e' & r & [= -> -> -> ->] & H); auto].
  Qed.
  Definition libs_cxx (p : list str) : bool := (lib_named $"libc++" p || lib_named $"libc++abi" p) || lib_named $"libunwind" p.
  Lemma libs_spec p : libs_cxx p = true <-> exists r, p = [$"lib"; $"libc++" ++ r] \/ p = [$"lib"; $"libunwind" ++ r].
  Proof.
    unfold libs_cxx. rewrite !orb_true_iff, !lib_named_spec. split.
    - intros [[(r & ->)|(r & ->)]|(r & ->)]; eauto. exists ($"abi" ++ r). left. reflexivity.
    - intros (r & [-> | ->]); eauto.
  Qed.
  Definition all_cxx (p : list str) : bool := libs_cxx p || under_dir [$"include"; $"c++"] p || platform_cxx p.
  Lemma all_cxx_spec p : all_cxx p = true <-> bundled_cxx p.
  Proof. unfold all_cxx, bundled_cxx. rewrite !orb_true_iff, libs_spec, under_spec, platform_spec. cbn. tauto. Qed.
  Lemma remove_libs : hoare safe (fun t => t = t2) (remove_bundled_libcxx env) (fun _ => removed libs_cxx).
  Proof.
    assert (B : forall p, libs_cxx p = true -> bundled_cxx p) by (intros p H; left; now apply libs_spec).
    assert (C : forall a r, In a [$"libc++"; $"libc++abi"; $"libunwind"] -> bundled_cxx [$"lib"; a ++ r]).
    { intros a r I. apply B, libs_spec. destruct I as [<-|[<-|[<-|[]]]]; eauto. exists ($"abi" ++ r). left. reflexivity. }
    unfold remove_bundled_libcxx. cbn [each].
    eapply h_bind with (R := fun _ => removed (fun p => false || lib_named $"libc++" p)).
    { apply h_pre with (P' := removed (fun _ => false)).
      - intros ? ->. destruct G2 as (l & G). split; [apply G|reflexivity].
      - apply remove_glob; [discriminate|discriminate|]. intros r. apply C. cbn. tauto. }
    intros []. eapply h_bind with (R := fun _ => removed (fun p => (false || lib_named $"libc++" p) || lib_named $"libc++abi" p)).
    { apply remove_glob; [discriminate| |intros r; apply C; cbn; tauto]. cbn. intros p H. apply B. unfold libs_cxx. now rewrite H. }
    intros []. eapply h_bind with (R := fun _ => removed libs_cxx); [|intros []; apply (h_ret safe tt (fun _ => removed libs_cxx))].
    apply (remove_glob (fun p => (false || lib_named $"libc++" p) || lib_named $"libc++abi" p)); [discriminate| |intros r; apply C; cbn; tauto].
    cbn. intros p H. apply B. unfold libs_cxx. now rewrite H.
  Qed.
  Lemma remove_headers : hoare safe (removed libs_cxx) (remove_bundled_libcxx_headers env) (fun _ => removed all_cxx).
  Proof.
    assert (B : forall p, all_cxx p = true -> bundled_cxx p) by (intros p; apply all_cxx_spec).
    apply h_when; [intros _|intros D; apply darwin_not_mac in D; contradiction].
    set (S1 := fun p => libs_cxx p || under_dir [$"include"; $"c++"] p).
    apply (h_assoc safe (removed libs_cxx) installed (fun t => when (exists_ t [$"include"; $"c++"]) (rmtree env [$"include"; $"c++"]))).
    eapply h_bind with (R := fun _ => removed S1).
    { apply (remove_if libs_cxx [$"c++"]).
      - intros p H. apply B. unfold all_cxx. now rewrite H.
      - intros r. apply B. unfold all_cxx. assert (under_dir [$"include"; $"c++"] ([$"include"; $"c++"] ++ r) = true) as -> by (apply under_spec; eauto). now rewrite orb_true_r.
      - intros r H. apply libs_spec in H as (x & [[=]|[=]]). }
    intros []. eapply h_bind; [apply h_installed|]. intros t. cbn beta. apply h_known. intros t' (-> & R).
    destruct (get t' [$"include"]) as [[| |]|] eqn:Gi; try apply h_raise.
    set (J := fun done => removed (fun p => S1 p || existsb (fun e => of_apple e && under_dir [$"include"; e; $"c++"] p) done)).
    apply h_post with (Q := fun _ => J (listdir t' [$"include"])).
    - intros _ t3. apply removed_ext. intros p Hp. unfold all_cxx. fold (S1 p). destruct (S1 p) eqn:Sp; cbn [orb]; auto. destruct (platform_cxx p) eqn:P.
      + apply platform_spec in P as (e & r & -> & H). apply existsb_exists. exists e. split.
        * apply listdir_get. cbn [app]. destruct R as (_ & R). rewrite R. destruct (S1 [$"include"; e]) eqn:Se.
          -- exfalso. apply orb_true_iff in Se as [Se|Se]; [apply libs_spec in Se as (x & [[=]|[=]])|].
             apply under_spec in Se as (x & E). cbn in E. injection E as -> _.
             assert (S1 ($"include" :: $"c++" :: $"c++" :: r) = true); [|congruence]. unfold S1.
             assert (under_dir [$"include"; $"c++"] ($"include" :: $"c++" :: $"c++" :: r) = true) as -> by (apply under_spec; now exists ($"c++" :: r)). now rewrite orb_true_r.
          -- change ($"include" :: e :: $"c++" :: r) with (($"include" :: [e]) ++ ($"c++" :: r)) in Hp. apply include_closed in Hp; [congruence|discriminate].
        * apply of_apple_spec in H as ->. rewrite andb_true_l. apply under_spec. now exists r.
      + destruct (existsb _ _) eqn:E; auto. apply existsb_exists in E as (e & _ & H). apply andb_true_iff in H as (H & K). apply under_spec in K as (r & ->).
        assert (platform_cxx ([$"include"; e; $"c++"] ++ r) = true); [|congruence]. apply platform_spec. exists e, r. split; auto. now apply of_apple_spec.
    - apply h_pre with (P' := J []); [intros ? ->; unfold J; cbn; eapply removed_ext; [|exact R]; intros; now rewrite orb_false_r|].
      apply h_each. intros done e after El. fold (of_apple e).
      assert (Bj : forall p, S1 p || existsb (fun e => of_apple e && under_dir [$"include"; e; $"c++"] p) done = true -> bundled_cxx p).
      { intros p H. apply orb_true_iff in H as [H|H]; [apply B; unfold all_cxx; fold (S1 p); now rewrite H|].
        apply existsb_exists in H as (x & _ & H). apply andb_true_iff in H as (H & K). apply under_spec in K as (r & ->). right. right. exists x, r. split; auto. now apply of_apple_spec. }
      apply h_when; intros A.
      + apply h_post with (Q := fun _ => removed (fun p => (S1 p || existsb (fun e => of_apple e && under_dir [$"include"; e; $"c++"] p) done) || under_dir ($"include" :: [e; $"c++"]) p)).
        { intros _ t3. apply removed_ext. intros p _. rewrite existsb_app. cbn [existsb]. rewrite A, orb_false_r, <- orb_assoc. reflexivity. }
        apply remove_if.
        * exact Bj.
        * intros r. right. right. exists e, r. split; auto. now apply of_apple_spec.
        * intros r H. apply orb_true_iff in H as [H|H]; apply orb_true_iff; [left|right].
          -- apply orb_true_iff in H as [H|H]; [apply libs_spec in H as (x & [[=]|[=]])|]. unfold S1. apply orb_true_iff. right.
             apply under_spec in H as (x & E). apply under_spec. exists (x ++ r). rewrite app_assoc, <- E. reflexivity.
          -- apply existsb_exists in H as (x & I & H). apply existsb_exists. exists x. split; auto.
      + intros t3. apply removed_ext. intros p _. rewrite existsb_app. cbn [existsb]. rewrite A. cbn. now rewrite orb_false_r.
  Qed.
  Lemma remove_all : hoare safe (fun t => t = t2) (remove_bundled_libcxx env;; remove_bundled_libcxx_headers env) (fun _ => removed all_cxx).
  Proof. eapply h_bind; [apply remove_libs|]. intros []. apply remove_headers. Qed.
  End Mac.
End Run.

(** ** The whole script *)
Definition steady {A} (m : M A) : Prop := forall s,
  s_calls (snd (m s)) = s_calls s
  /\ match fst (m s) with Exits c => c = 1%Z | Ok _ => True end
  /\ forall d, s_tree s = last (s_moments s) d -> s_tree (snd (m s)) = last (s_moments (snd (m s))) d.
Lemma st_bind {A B} (m : M A) (f : A -> M B) : steady m -> (forall a, steady (f a)) -> steady (bind m f).
Proof.
  intros Hm Hf s. destruct (Hm s) as (A1 & A2 & A3). unfold bind. destruct (m s) as ([a|c] & s'); cbn in *; [|auto].
  destruct (Hf a s') as (B1 & B2 & B3). rewrite B1. auto.
Qed.
Lemma st_ret {A} (a : A) : steady (ret a).
Proof. intros s. cbn. auto. Qed.
Lemma st_raise {A} : steady (@raise A).
Proof. intros s. cbn. auto. Qed.
Lemma st_installed : steady installed.
Proof. intros s. cbn. auto. Qed.
Lemma st_operation env : steady (operation env).
Proof. intros s. unfold operation. destruct (c_raises env (s_ops s)); cbn; auto. Qed.
Lemma st_becomes t : steady (becomes t).
Proof. intros s. cbn. repeat split; auto. intros d _. now rewrite last_last. Qed.
Lemma st_when b m : steady m -> steady (when b m).
Proof. intros H. destruct b; [exact H|apply st_ret]. Qed.
Lemma st_each {A} (l : list A) f : (forall a, steady (f a)) -> steady (each l f).
Proof. intros H. induction l; [apply st_ret|]. now apply st_bind. Qed.
Ltac steady := repeat first
  [ apply st_ret | apply st_raise | apply st_installed | apply st_operation | apply st_becomes | apply st_when
  | apply st_each; intros ? | apply st_bind; [|intros ?]
  | match goal with |- steady (match ?x with _ => _ end) => destruct x end
  | match goal with |- steady (let '_ := ?x in _) => destruct x end ].
Lemma st_objects env llc objs : forall d c, steady (convert_objects env llc objs d c).
Proof.
  induction objs as [|o objs IH]; intros d c; cbn; [apply st_ret|]. apply st_bind; [|intros r; apply IH]. unfold try_convert_to_native. steady.
Qed.
Definition rest env skip : M unit :=
  when (negb skip) (convert_bitcode_libraries env);;
  when (is_darwin env) (remove_bundled_libcxx env;; remove_bundled_libcxx_headers env);;
  elsewhere env.
Lemma st_rest env skip : steady (rest env skip).
Proof.
  unfold rest, elsewhere, seq. steady. unfold convert_library, ar_r, seq, rename, remove. steady. apply st_objects. cbv zeta. steady.
Qed.
(** Until the unpacking is over, nothing is recorded; then there is what was unpacked. *)
Definition fetched env : str :=
  if is_darwin env then $"LLVM-21.1.8-macOS-ARM64.tar.xz" else if is_aarch64_or_arm64 env then $"LLVM-21.1.8-Linux-ARM64.tar.xz" else $"LLVM-21.1.8-Linux-X64.tar.xz".
Lemma fetched_release env : release_file env (fetched env).
Proof.
  unfold fetched, release_file. destruct (is_darwin env) eqn:D; [apply darwin_mac in D; auto|apply darwin_not_mac in D].
  destruct (is_aarch64_or_arm64 env) eqn:A; [apply arm_arm in A; auto|]. right. right. repeat split; auto. intros H. apply arm_arm in H. congruence.
Qed.
Definition not_yet env (r : result unit * proc) : Prop :=
  s_moments (snd r) = [] /\ (exists c, fst r = Exits c /\ c <> 0%Z)
  /\ exists more, [download (fetched env); unpack env] = s_calls (snd r) ++ more.
Definition started env skip (r : result unit * proc) : Prop :=
  exists t1 s1, s_moments s1 = [t1] /\ s_tree s1 = t1 /\ s_calls s1 = [download (fetched env); unpack env] /\ r = rest env skip s1.
Definition early {A} env (C C' : list str) (m : M A) : Prop := forall s, s_moments s = [] -> s_calls s = C ->
  s_moments (snd (m s)) = []
  /\ match fst (m s) with
     | Ok _ => s_calls (snd (m s)) = C'
     | Exits c => c <> 0%Z /\ exists more, [download (fetched env); unpack env] = s_calls (snd (m s)) ++ more
     end.
Lemma early_bind {A} env skip C C' (m : M A) (f : A -> M unit) s : early env C C' m -> s_moments s = [] -> s_calls s = C ->
  (forall a s', m s = (Ok a, s') -> s_moments s' = [] -> s_calls s' = C' -> not_yet env (f a s') \/ started env skip (f a s')) ->
  not_yet env (bind m f s) \/ started env skip (bind m f s).
Proof.
  intros E Ms Cs H. specialize (E s Ms Cs). unfold bind. destruct (m s) as ([a|c] & s'); cbn in E.
  - apply H; auto; apply E.
  - left. unfold not_yet. cbn. destruct E as (A1 & A2 & A3). eauto.
Qed.
Lemma early_operation env C more : [download (fetched env); unpack env] = C ++ more -> early env C C (operation env).
Proof. intros E s Ms Cs. unfold operation. destruct (c_raises env (s_ops s)); cbn; rewrite ?Cs; repeat split; auto; [discriminate|eauto]. Qed.
Lemma early_elsewhere env C more : [download (fetched env); unpack env] = C ++ more -> early env C C (elsewhere env).
Proof.
  intros E s Ms Cs. destruct (early_operation env C more E s Ms Cs) as (A1 & A2). unfold elsewhere, bind. destruct (operation env s) as ([a|c] & s'); cbn in *; auto.
Qed.
Lemma early_call env C cmd k more : [download (fetched env); unpack env] = C ++ [cmd] ++ more -> early env C (C ++ [cmd]) (call env cmd k).
Proof.
  intros E s Ms Cs. unfold call, bind. destruct (early_operation env C ([cmd] ++ more) E s Ms Cs) as (A1 & A2).
  destruct (operation env s) as ([a|c] & s'); cbn in *; auto. destruct (k a =? 0)%Z eqn:K; cbn; rewrite A2; split; auto. split; [now apply Z.eqb_neq in K|].
  exists more. now rewrite <- app_assoc.
Qed.
Lemma setup_run env skip s : s_moments s = [] -> s_calls s = [] ->
  not_yet env (setup_prebuilt_binary env skip s) \/ started env skip (setup_prebuilt_binary env skip s).
Proof.
  intros M C. unfold setup_prebuilt_binary. fold (rest env skip).
  assert (Cu : $"curl -L -o prebuilt.tar.xz " ++ binary_url env = download (fetched env)).
  { unfold binary_url, fetched. destruct (is_darwin env); [reflexivity|]. destruct (is_aarch64_or_arm64 env); reflexivity. }
  assert (Ta : $"tar xf prebuilt.tar.xz -C " ++ clang_install_dir env ++ $" --strip-components=1" = unpack env).
  { unfold clang_install_dir, unpack. rewrite <- !app_assoc. reflexivity. }
  rewrite Cu. unfold seq.
  eapply early_bind; [eapply (early_elsewhere env []); reflexivity|auto|exact C|]. intros [] s1 _ M1 C1.
  eapply early_bind; [eapply (early_elsewhere env []); reflexivity|auto|exact C1|]. intros [] s2 _ M2 C2.
  eapply early_bind; [eapply early_call with (C := []); reflexivity|auto|exact C2|]. intros [] s3 _ M3 C3.
  eapply early_bind; [eapply (early_elsewhere env [download (fetched env)]); reflexivity|auto|exact C3|]. intros [] s4 _ M4 C4.
  assert (Eq : tar env s4 = match call env (unpack env) (fun n => fst (c_tar env n (s_tree s4))) s4 with
                            | (Ok _, s5) => becomes (snd (c_tar env (s_ops s4) (s_tree s4))) s5
                            | (Exits c, s5) => (Exits c, s5)
                            end) by (unfold tar; rewrite Ta; reflexivity).
  pose proof (early_call env [download (fetched env)] (unpack env) (fun n => fst (c_tar env n (s_tree s4))) [] eq_refl s4 M4 C4) as E.
  unfold bind. rewrite Eq. destruct (call env (unpack env) (fun n => fst (c_tar env n (s_tree s4))) s4) as ([u|c] & s5); cbn in E; destruct E as (E1 & E2).
  - right. unfold becomes. exists (snd (c_tar env (s_ops s4) (s_tree s4))). eexists. split; [|split; [|split; [|reflexivity]]]; cbn; auto. now rewrite E1.
  - left. unfold not_yet. cbn. destruct E2 as (E2 & E3). eauto.
Qed.
Lemma clang_run env clean skip t0 : not_yet env (run env clean skip t0) \/ started env skip (run env clean skip t0).
Proof.
  unfold run, clang, seq. destruct clean.
  - cbn [when]. unfold clean_module, seq.
    assert (E : early env [] [] (do _ <- elsewhere env;; do _ <- operation env;; fun s => (Ok tt, {| s_tree := []; s_moments := s_moments s; s_ops := s_ops s; s_calls := s_calls s |}))).
    { intros s Ms Cs. destruct (early_elsewhere env [] _ eq_refl s Ms Cs) as (A1 & A2). unfold bind. destruct (elsewhere env s) as ([a|c] & s1); cbn in *; auto.
      destruct (early_operation env [] _ eq_refl s1 A1 A2) as (B1 & B2). destruct (operation env s1) as ([b|c] & s2); cbn in *; auto. }
    eapply early_bind; [exact E|reflexivity|reflexivity|]. intros [] s1 _ M1 C1. now apply setup_run.
  - cbn [when]. unfold bind, ret. cbn. now apply setup_run.
Qed.
Definition finished env (skip : bool) t1 t : Prop := exists t2,
  (exists l, good env t1 l t2 /\ (skip = false -> forall llc, llc_used env t1 llc -> forall n, library n -> get t1 (at_lib n) <> None -> In n l))
  /\ (skip = true \/ (forall llc, ~ llc_used env t1 llc) -> t2 = t1)
  /\ (mac env -> removed t2 all_cxx t) /\ (~ mac env -> t = t2).
Lemma rest_result env skip t1 : real_tree t1 -> hoare (safe env t1) (fun t => t = t1) (rest env skip) (fun _ t => finished env skip t1 t).
Proof.
  intros (N1 & closed). unfold rest. eapply h_bind with (R := fun _ t2 => (exists l, good env t1 l t2 /\ (skip = false -> forall llc, llc_used env t1 llc -> forall n, library n -> get t1 (at_lib n) <> None -> In n l))
     /\ (skip = true \/ (forall llc, ~ llc_used env t1 llc) -> t2 = t1)).
  - apply h_when; destruct skip; try discriminate; intros _.
    + eapply h_post; [|exact (convert_all env t1 N1)]. intros _ t ((l & G & K) & T). split; [exists l; auto|]. intros [D|D]; [discriminate|auto].
    + intros ? ->. split; [exists []; split; [now apply good_start|discriminate]|auto].
  - intros []. apply h_known. intros t2 (G & T). eapply h_bind with (R := fun _ t => (mac env -> removed t2 all_cxx t) /\ (~ mac env -> t = t2)).
    + apply h_when; intros D.
      * apply darwin_mac in D. apply h_post with (Q := fun _ => removed t2 all_cxx); [intros _ t R; split; [auto|contradiction]|].
        destruct G as (l & G & _). apply remove_all; eauto.
      * apply darwin_not_mac in D. intros ? ->. split; [contradiction|auto].
    + intros []. eapply h_bind; [apply h_operation|]. intros k. cbn beta.
      apply h_pre with (P' := fun t => (fun (_ : unit) t => finished env skip t1 t) tt t).
      * intros t (A & B). exists t2. auto.
      * apply (h_ret (safe env t1) tt (fun _ t => finished env skip t1 t)).
Qed.
(** What was there stays in the record. *)
Definition grows {A} (m : M A) : Prop := forall s, exists new, s_moments (snd (m s)) = s_moments s ++ new.
Lemma gr_bind {A B} (m : M A) (f : A -> M B) : grows m -> (forall a, grows (f a)) -> grows (bind m f).
Proof.
  intros Hm Hf s. destruct (Hm s) as (n & E). unfold bind. destruct (m s) as ([a|c] & s'); cbn in *; [|eauto].
  destruct (Hf a s') as (n' & E'). exists (n ++ n'). now rewrite E', E, app_assoc.
Qed.
Lemma gr_same {A} (m : M A) : (forall s, s_moments (snd (m s)) = s_moments s) -> grows m.
Proof. intros H s. exists []. now rewrite H, app_nil_r. Qed.
Lemma gr_operation env : grows (operation env).
Proof. apply gr_same. intros s. unfold operation. destruct (c_raises env (s_ops s)); reflexivity. Qed.
Lemma gr_becomes t : grows (becomes t).
Proof. intros s. cbn. eauto. Qed.
Lemma gr_when b m : grows m -> grows (when b m).
Proof. intros H. destruct b; [exact H|now apply gr_same]. Qed.
Lemma gr_each {A} (l : list A) f : (forall a, grows (f a)) -> grows (each l f).
Proof. intros H. induction l; [now apply gr_same|]. now apply gr_bind. Qed.
Ltac grows := repeat first
  [ apply gr_operation | apply gr_becomes | apply gr_when
  | apply gr_each; intros ? | apply gr_bind; [|intros ?] | apply gr_same; intros ?; reflexivity
  | match goal with |- grows (match ?x with _ => _ end) => destruct x end
  | match goal with |- grows (let '_ := ?x in _) => destruct x end ].
Lemma gr_rest env skip : grows (rest env skip).
Proof.
  unfold rest, elsewhere, seq. grows. unfold convert_library, ar_r, seq, rename, remove. grows.
  - apply gr_same. intros s'. apply objects_calm.
  - cbv zeta. grows.
Qed.
