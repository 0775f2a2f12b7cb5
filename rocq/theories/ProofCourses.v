(** * Lemmas about courses *)
From Verif Require Import Base BaseFacts ModelAST SpecFilter ProofFilter SpecAST ProofAST SpecCourses.

(** ** Decisions determine the course *)
Ltac shapes :=
  unfold wraps, one_test, undivided, test_first, for_each in *;
  repeat match goal with
  | H : n_shape ?e = _, K : context [n_shape ?e] |- _ =>
      lazymatch K with H => fail | _ => rewrite H in K end
  end; try discriminate; try contradiction.

Lemma tests_free e b p : tests e b p -> forall b' p' r r', tests e b' p' -> p ++ r = p' ++ r' ->
  b = b' /\ p = p'.
Proof.
  induction 1; intros b' p' r0 r' T E; inversion T; subst; shapes;
    repeat match goal with
    | H : _ = BinaryOperator _ _ _ |- _ => injection H as ? ?; subst
    | H : _ = UnaryOperator _ _ |- _ => injection H as ?; subst
    | H : _ = ConditionalOperator _ _ _ |- _ => injection H as ? ? ?; subst
    end; rewrite <- ?app_assoc in E.
  - cbn in E. injection E as -> _. auto.
  - destruct (n_shape e); contradiction.
  - destruct (n_shape e); contradiction.
  - assert (x0 = x) by (destruct (n_shape e); congruence || contradiction). subst. eauto.
  - destruct (IHtests _ _ _ _ H2 E). subst. auto.
  - eauto.
  - destruct (IHtests _ _ _ _ H2 E). discriminate.
  - destruct (IHtests1 _ _ _ _ H3 E). discriminate.
  - destruct (IHtests1 _ _ _ _ H3 E). subst. apply app_inv_head in E.
    destruct (IHtests2 _ _ _ _ H4 E). subst. auto.
  - eauto.
  - destruct (IHtests _ _ _ _ H2 E). discriminate.
  - destruct (IHtests1 _ _ _ _ H3 E). discriminate.
  - destruct (IHtests1 _ _ _ _ H3 E). subst. apply app_inv_head in E.
    destruct (IHtests2 _ _ _ _ H4 E). subst. auto.
  - destruct (IHtests1 _ _ _ _ H3 E). subst. apply app_inv_head in E.
    destruct (IHtests2 _ _ _ _ H4 E). subst. auto.
Qed.

Scheme course_mut := Induction for course Sort Prop
  with courses_mut := Induction for courses Sort Prop.
Combined Scheme course_courses from course_mut, courses_mut.

Ltac step :=
  match goal with
  | H : False |- _ => destruct H
  | H : _ /\ _ |- _ => destruct H
  | H : _ = CompoundStmt _ |- _ => injection H; clear H; intros; subst
  | H : _ = IfStmt _ _ _ _ |- _ => injection H; clear H; intros; subst
  | H : _ = DoStmt _ _ |- _ => injection H; clear H; intros; subst
  | H : _ = SwitchStmt _ _ _ _ |- _ => injection H; clear H; intros; subst
  | H : _ = CaseStmt _ _ |- _ => injection H; clear H; intros; subst
  | H : _ = DefaultStmt _ |- _ => injection H; clear H; intros; subst
  | H : Some _ = Some _ |- _ => injection H; clear H; intros; subst
  | H : _ \/ _ |- _ => destruct H; subst
  | H : ?x = _ |- _ => is_var x; subst x
  | H : _ = ?x |- _ => is_var x; subst x
  | E : (?d :: _) ++ _ = (?d :: _) ++ _ |- _ => cbn in E; apply (f_equal (@tl decision)) in E; cbn in E
  | E : (_ ++ _) ++ _ = _ |- _ => rewrite <- app_assoc in E
  | E : _ = (_ ++ _) ++ _ |- _ => rewrite <- app_assoc in E
  | E : ?p ++ _ = ?p ++ _ |- _ => apply app_inv_head in E
  | T : tests ?c ?b ?p, U : tests ?c ?b' ?p', E : ?p ++ _ = ?p' ++ _ |- _ =>
      destruct (tests_free _ _ _ T _ _ _ _ U E); subst; clear T
  | IH : (forall p' o' r r', course ?a p' o' -> ?p ++ r = p' ++ r' -> _), C : course ?a ?q ?o,
    E : ?p ++ _ = ?q ++ _ |- _ => destruct (IH _ _ _ _ C E); subst; clear IH
  | IH : (forall p' o' r r', courses ?a p' o' -> ?p ++ r = p' ++ r' -> _), C : courses ?a ?q ?o,
    E : ?p ++ _ = ?q ++ _ |- _ => destruct (IH _ _ _ _ C E); subst; clear IH
  end; try discriminate.

Lemma split_at {A} (a b : list A) x y r s : length a = length b -> a ++ x :: r = b ++ y :: s ->
  a = b /\ x = y /\ r = s.
Proof.
  revert b. induction a; intros [|b0 b] L E; try discriminate; cbn in *.
  - injection E as -> ->. auto.
  - injection L as L. injection E as -> E. destruct (IHa _ L E) as (-> & -> & ->). auto.
Qed.

Lemma free_both :
  (forall n p o, course n p o -> forall p' o' r r', course n p' o' -> p ++ r = p' ++ r' ->
     p = p' /\ o = o')
  /\ (forall l p o, courses l p o -> forall p' o' r r', courses l p' o' -> p ++ r = p' ++ r' ->
     p = p' /\ o = o').
Proof.
  apply course_courses; intros;
    match goal with C : course _ _ ?o' |- _ = _ /\ _ = ?o' => inversion C; subst
    | C : courses _ _ ?o' |- _ = _ /\ _ = ?o' => inversion C; subst end; shapes;
    repeat match goal with K : context [match n_shape ?e with _ => _ end] |- _ =>
       destruct (n_shape e) eqn:?; try contradiction; try discriminate end;
    repeat step; auto.
  match goal with E : (Entered _ _ :: _) ++ _ = _ |- _ => cbn in E; injection E as EL E end.
  rewrite e0 in H3. injection H3 as E. apply split_at in E; auto.
  destruct E as (-> & -> & ->). repeat step; auto.
Qed.
Definition course_free := proj1 free_both.
Definition courses_free := proj2 free_both.
Lemma course_functional n p o o' : course n p o -> course n p o' -> o = o'.
Proof. intros C D. exact (proj2 (course_free n p o C p o' [] [] D eq_refl)). Qed.

(** ** Enumerations *)
Definition reached := list decision -> option jump -> Prop.
Definition enumerates (R : reached) (l : list (list decision * option jump)) : Prop :=
  NoDup l /\ forall p o, In (p, o) l <-> R p o.
Definition free (R : reached) : Prop :=
  forall p o p' o' r r', R p o -> R p' o' -> p ++ r = p' ++ r' -> p = p' /\ o = o'.

Lemma nodup_app {A} (a b : list A) : NoDup a -> NoDup b -> (forall x, In x a -> In x b -> False) ->
  NoDup (a ++ b).
Proof.
  induction 1 as [|x a Hx N IH]; intros Hb D; cbn; auto. constructor.
  - rewrite in_app_iff. intros [K|K]; auto. apply (D x); cbn; auto.
  - apply IH; auto. intros y Hy. apply D. cbn; auto.
Qed.
Lemma nodup_flat {A B} (f : A -> list B) l : NoDup l -> (forall x, In x l -> NoDup (f x)) ->
  (forall x y z, In x l -> In y l -> In z (f x) -> In z (f y) -> x = y) -> NoDup (flat_map f l).
Proof.
  induction 1 as [|x l Hx N IH]; intros Hf D; cbn; [constructor|]. apply nodup_app.
  - apply Hf. cbn; auto.
  - apply IH; [intros; apply Hf; cbn; auto|]. intros y z w Hy Hz. apply D; cbn; auto.
  - intros y Hy K. apply in_flat_map in K. destruct K as (z & Hz & K).
    rewrite (D x z y) in Hx; cbn; auto.
Qed.
Lemma nodup_map {A B} (f : A -> B) l : NoDup l -> (forall x y, In x l -> In y l -> f x = f y -> x = y) ->
  NoDup (map f l).
Proof.
  intros N D. rewrite <- (flat_map_concat_map (fun x => [f x]) l) || idtac.
  induction N as [|x l Hx N IH]; cbn; constructor.
  - intros K. apply in_map_iff in K. destruct K as (y & E & Hy). rewrite (D x y) in Hx; cbn; auto.
  - apply IH. intros; apply D; cbn; auto.
Qed.

Lemma enum_ext R R' l : (forall p o, R p o <-> R' p o) -> enumerates R l -> enumerates R' l.
Proof. intros H (N & K). split; auto. intros. now rewrite K, H. Qed.
Lemma enum_union R R' l l' : enumerates R l -> enumerates R' l' ->
  (forall p o, R p o -> R' p o -> False) -> enumerates (fun p o => R p o \/ R' p o) (l ++ l').
Proof.
  intros (N & K) (N' & K') D. split.
  - apply nodup_app; auto. intros (p, o) H H'. apply K in H. apply K' in H'. eauto.
  - intros p o. now rewrite in_app_iff, K, K'.
Qed.
Lemma enum_map (f : list decision * option jump -> list decision * option jump) R l :
  enumerates R l ->
  (forall p o p' o', R p o -> R p' o' -> f (p, o) = f (p', o') -> (p, o) = (p', o')) ->
  enumerates (fun p o => exists q k, R q k /\ (p, o) = f (q, k)) (map f l).
Proof.
  intros (N & K) D. split.
  - apply nodup_map; auto. intros (p, o) (p', o') H H'. apply K in H. apply K in H'. auto.
  - intros p o. rewrite in_map_iff. split.
    + intros ((q, k) & E & H). exists q, k. split; [now apply K|auto].
    + intros (q & k & H & E). exists (q, k). split; auto. now apply K.
Qed.
Lemma enum_one p o : enumerates (fun q k => q = p /\ k = o) [(p, o)].
Proof.
  split; [repeat constructor; intros []|]. intros q k. cbn. split; [intros [E|[]]|intros (-> & ->)]; auto.
  injection E as <- <-. auto.
Qed.
Lemma enum_seq X L lx ll : enumerates X lx -> free X -> enumerates L ll ->
  let l := flat_map (fun c => match snd c with
                              | None => map (fun d => (fst c ++ fst d, snd d)) ll
                              | Some _ => [c] end) lx in
  enumerates (fun p o => (exists q r, X q None /\ L r o /\ p = q ++ r)
                         \/ exists j, o = Some j /\ X p (Some j)) l
  /\ length l <= length lx * Nat.max 1 (length ll)
  /\ ((forall p o, X p o -> o = None) -> length l = length lx * length ll)
  /\ (length ll = 1 -> length l = length lx).
Proof.
  intros (Nx & Kx) F (Nl & Kl) l. split; [split|split; [|split]].
  - apply nodup_flat; auto.
    + intros (p, [j|]) Hp; cbn; [repeat constructor; intros []|]. apply nodup_map; auto.
      intros (q, k) (q', k') _ _ E. cbn in E. injection E as E ->. apply app_inv_head in E. now subst.
    + intros (p, o) (p', o') (r, k) Hp Hp' Hr Hr'. apply Kx in Hp. apply Kx in Hp'.
      assert (P : exists a, r = p ++ a).
      { destruct o; cbn in Hr.
        - destruct Hr as [E|[]]. injection E as -> _. exists []. now rewrite app_nil_r.
        - apply in_map_iff in Hr. destruct Hr as ((q & k') & E & _). cbn in E. injection E as <- _. eauto. }
      assert (P' : exists a, r = p' ++ a).
      { destruct o'; cbn in Hr'.
        - destruct Hr' as [E|[]]. injection E as -> _. exists []. now rewrite app_nil_r.
        - apply in_map_iff in Hr'. destruct Hr' as ((q & k') & E & _). cbn in E. injection E as <- _. eauto. }
      destruct P as (a & ->). destruct P' as (a' & E).
      destruct (F _ _ _ _ _ _ Hp Hp' E). congruence.
  - intros p o. unfold l. rewrite in_flat_map. split.
    + intros ((q, k) & Hq & H). apply Kx in Hq. destruct k as [j|]; cbn in H.
      * destruct H as [E|[]]. injection E as <- <-. eauto.
      * apply in_map_iff in H. destruct H as ((r, k) & E & Hr). cbn in E. injection E as <- <-.
        left. exists q, r. rewrite <- Kl. auto.
    + intros [(q & r & Hq & Hr & ->)|(j & -> & Hp)].
      * exists (q, None). split; [now apply Kx|]. cbn. apply in_map_iff. exists (r, o). split; auto. now apply Kl.
      * exists (p, Some j). split; [now apply Kx|]. cbn. auto.
  - subst l. clear. induction lx as [|(p, [j|]) lx IH]; cbn [flat_map snd length app]; [lia|nia|].
    rewrite app_length, map_length. nia.
  - intros H. assert (G : forall c, In c lx -> snd c = None).
    { intros (p, o) Hp. apply Kx in Hp. cbn. eauto. }
    subst l. clear - G. induction lx as [|(p, o) lx IH]; cbn; auto.
    assert (o = None) by (apply (G (p, o)); cbn; auto). subst. rewrite app_length, map_length.
    rewrite IH; auto. intros; apply G; cbn; auto.
  - intros H. subst l. clear - H. induction lx as [|(p, [j|]) lx IH]; cbn; auto.
    rewrite app_length, map_length. lia.
Qed.

(** ** Plain conditions *)
Lemma plain_tests c : plain c -> exists p : bool -> list decision, forall b q, tests c b q <-> q = p b.
Proof.
  induction 1 as [e H|e x W P (p & K)|e x E P (p & K)].
  - exists (fun b => [Tested e b]). intros b q. split; [|intros ->; now constructor].
    intros T; inversion T; subst; shapes; auto. destruct (n_shape e); contradiction.
  - exists p. intros b q. rewrite <- K. split; [|intros T; econstructor; eauto].
    intros T; inversion T; subst; shapes; auto.
    + destruct (n_shape e); contradiction.
    + assert (x0 = x) by (destruct (n_shape e); congruence || contradiction). now subst.
  - exists (fun b => p (negb b)). intros b q. rewrite <- K. split.
    + intros T; inversion T; subst; shapes. injection H as <-. now rewrite Bool.negb_involutive.
    + intros T. rewrite <- (Bool.negb_involutive b). eapply te_not; eauto.
Qed.
Lemma plain_free c p : (forall b q, tests c b q <-> q = p b) ->
  forall b b' r r', p b ++ r = p b' ++ r' -> b = b' /\ r = r'.
Proof.
  intros K b b' r r' E. assert (T : tests c b (p b)) by now apply K.
  assert (T' : tests c b' (p b')) by now apply K.
  destruct (tests_free _ _ _ T _ _ _ _ T' E) as (-> & _). split; auto. now apply app_inv_head in E.
Qed.
Lemma plain_exZ c : plain c -> exZ c = 0%Z.
Proof.
  induction 1 as [e H|e x W P IH|e x E P IH]; shapes; destruct e as [i t s]; cbn in *;
    destruct s; cbn in *; try contradiction; subst; auto; try discriminate.
  - destruct op; auto; contradiction.
Qed.

(** ** The constructs *)
Lemma functional_enum n l : enumerates (course n) l -> forall p o p' o' x,
  In (p, o) l -> In (p', o') l -> p ++ x = p' ++ x -> (p, o) = (p', o').
Proof.
  intros (_ & K) p o p' o' x H H' E. apply K in H. apply K in H'.
  destruct (course_free _ _ _ H _ _ _ _ H' E). congruence.
Qed.
Lemma enum_prefixed R l pre f : enumerates R l -> free R ->
  enumerates (fun p o => exists q k, R q k /\ p = pre ++ q /\ o = f k)
    (map (fun c => (pre ++ fst c, f (snd c))) l).
Proof.
  intros E F. eapply enum_ext; [|apply enum_map; [exact E|]].
  - intros p o. split; intros (q & k & H & K); exists q, k; split; auto.
    + cbn in K. injection K as -> ->. auto.
    + destruct K as (-> & ->). reflexivity.
  - intros p o p' o' H H' K. cbn in K. injection K as K _. apply app_inv_head in K. subst.
    destruct (F p' o p' o' [] [] H H' eq_refl). congruence.
Qed.
Lemma free_course n : free (course n).
Proof. intros p o p' o' r r' H H' E. exact (course_free _ _ _ H _ _ _ _ H' E). Qed.
Lemma free_courses n : free (courses n).
Proof. intros p o p' o' r r' H H' E. exact (courses_free _ _ _ H _ _ _ _ H' E). Qed.

Lemma enum_undivided n : undivided n -> enumerates (course n) [([], jump_of n)].
Proof.
  intros U. eapply enum_ext; [|apply enum_one]. intros p o. split.
  - intros (-> & ->). now constructor.
  - intros C; inversion C; subst; shapes; auto; destruct (n_shape n); contradiction.
Qed.
Lemma enum_nil : enumerates (courses []) [([], None)].
Proof.
  eapply enum_ext; [|apply enum_one]. intros p o. split.
  - intros (-> & ->). constructor.
  - intros C; inversion C; auto.
Qed.
Lemma enum_cons x l lx ll : enumerates (course x) lx -> enumerates (courses l) ll ->
  exists k, enumerates (courses (x :: l)) k
  /\ length k <= length lx * Nat.max 1 (length ll)
  /\ ((forall p o, course x p o -> o = None) -> length k = length lx * length ll)
  /\ (length ll = 1 -> length k = length lx).
Proof.
  intros Ex El. pose proof (enum_seq _ _ _ _ Ex (free_course x) El) as (E & H). eexists.
  split; [|exact H]. eapply enum_ext; [|exact E]. intros p o. split.
  - intros [(q & r & Hq & Hr & ->)|(j & -> & Hp)]; now constructor.
  - intros C; inversion C; subst; eauto 8.
Qed.
Lemma enum_block n l k : n_shape n = CompoundStmt l -> enumerates (courses l) k -> enumerates (course n) k.
Proof.
  intros S E. eapply enum_ext; [|exact E]. intros p o. split.
  - intros C. eapply co_block; eauto.
  - intros C; inversion C; subst; shapes. injection H as <-. auto.
Qed.

Lemma enum_if n pre c a e la lb : n_shape n = IfStmt pre c a e -> plain c ->
  enumerates (course a) la ->
  match e with Some b => enumerates (course b) lb | None => lb = [([], None)] end ->
  exists l, enumerates (course n) l /\ length l = length la + length lb.
Proof.
  intros S P Ea Eb. destruct (plain_tests c P) as (p & T). pose proof (plain_free c p T) as F.
  assert (Eb' : enumerates (fun q o => match e with Some b => course b q o | None => q = [] /\ o = None end) lb).
  { destruct e; auto. subst. apply enum_one. }
  assert (Fb : free (fun q o => match e with Some b => course b q o | None => q = [] /\ o = None end)).
  { destruct e; [apply free_course|]. intros ? ? ? ? ? ? (-> & ->) (-> & ->); auto. }
  eexists. split.
  - eapply enum_ext; [|apply enum_union;
      [exact (enum_prefixed _ _ (p true) (fun o => o) Ea (free_course a))
      |exact (enum_prefixed _ _ (p false) (fun o => o) Eb' Fb)|]].
    + intros q o. split.
      * intros [(r & k & C & -> & ->)|(r & k & C & -> & ->)].
        -- eapply co_then; eauto. now apply T.
        -- destruct e.
           ++ eapply co_else; eauto. now apply T.
           ++ destruct C as (-> & ->). rewrite app_nil_r. eapply co_no_else; eauto. now apply T.
      * intros C; inversion C; subst; shapes; match goal with H : IfStmt _ _ _ _ = _ |- _ => injection H; clear H; intros; subst end;
          match goal with H : tests _ _ _ |- _ => apply T in H; subst end; [left|right|right]; eauto 8.
        exists [], None. rewrite app_nil_r. auto.
    + intros q o (r & k & _ & -> & _) (r' & k' & _ & E & _). apply F in E. destruct E; discriminate.
  - rewrite app_length, !map_length. reflexivity.
Qed.
Lemma enum_test_first n c b lb : test_first n (Some c) b -> plain c -> enumerates (course b) lb ->
  exists l, enumerates (course n) l /\ length l = S (length lb)
  /\ ((forall p o, course b p o -> o = None) -> forall p o, course n p o -> o = None).
Proof.
  intros S P Eb. destruct (plain_tests c P) as (p & T). pose proof (plain_free c p T) as F.
  assert (I : forall q o, course n q o ->
    (q = p false /\ o = None) \/ exists r k, course b r k /\ q = p true ++ r /\ o = after_loop k).
  { intros q o C; inversion C; subst; unfold test_first in *; shapes;
      repeat match goal with K : context [match n_shape ?e with _ => _ end] |- _ =>
       destruct (n_shape e) eqn:?; try contradiction; try discriminate end; repeat step;
     repeat match goal with H : tests _ _ _ |- _ => apply T in H; subst end; eauto 8. }
  eexists. split; [|split].
  - eapply enum_ext; [|apply enum_union; [exact (enum_one (p false) None)
      |exact (enum_prefixed _ _ (p true) after_loop Eb (free_course b))|]].
    + intros q o. split; [|apply I].
      intros [(-> & ->)|(r & k & C & -> & ->)].
      * eapply co_skip; eauto. now apply T.
      * eapply co_once; eauto. now apply T.
    + intros q o (-> & _) (r & k & _ & E & _). rewrite <- (app_nil_r (p false)) in E. apply F in E.
      destruct E; discriminate.
  - cbn. now rewrite map_length.
  - intros N q o C. destruct (I q o C) as [(_ & ->)|(r & k & D & _ & ->)]; auto.
    now rewrite (N _ _ D).
Qed.
Lemma enum_forever n b lb : test_first n None b -> enumerates (course b) lb ->
  exists l, enumerates (course n) l /\ length l = length lb.
Proof.
  intros S Eb. eexists. split.
  - eapply enum_ext; [|exact (enum_prefixed _ _ [] after_loop Eb (free_course b))].
    intros q o. split.
    + intros (r & k & C & -> & ->). eapply co_forever; eauto.
    + intros C; inversion C; subst; unfold test_first in *; shapes;
      repeat match goal with K : context [match n_shape ?e with _ => _ end] |- _ =>
       destruct (n_shape e) eqn:?; try contradiction; try discriminate end; repeat step; eauto 8.
  - now rewrite map_length.
Qed.
Lemma enum_each n b lb : for_each n b -> enumerates (course b) lb ->
  exists l, enumerates (course n) l /\ length l = S (length lb).
Proof.
  intros S Eb. eexists. split.
  - eapply enum_ext; [|apply enum_union; [exact (enum_one [Tested n false] None)
      |exact (enum_prefixed _ _ [Tested n true] after_loop Eb (free_course b))|]].
    + intros q o. split.
      * intros [(-> & ->)|(r & k & C & -> & ->)]; [eapply co_none; eauto|].
        eapply (co_each n b); eauto.
      * intros C; inversion C; subst; unfold for_each in *; shapes;
        repeat match goal with K : context [match n_shape ?e with _ => _ end] |- _ =>
         destruct (n_shape e) eqn:?; try contradiction; try discriminate end; repeat step; eauto 8;
        right; do 2 eexists; split; eauto.
    + intros q o (-> & _) (r & k & _ & E & _). discriminate.
  - cbn. now rewrite map_length.
Qed.
Lemma enum_do n b c lb : n_shape n = DoStmt b c -> plain c -> enumerates (course b) lb ->
  exists l, enumerates (course n) l /\ length l = length lb.
Proof.
  intros S P Eb. destruct (plain_tests c P) as (p & T).
  eexists. split.
  - eapply enum_ext; [|apply (enum_map (fun d => match snd d with
       | None | Some JContinue => (fst d ++ p false, None)
       | Some JBreak => (fst d, None) | Some JLeave => (fst d, Some JLeave) end) _ _ Eb)].
    + intros q o. split.
      * intros (r & k & C & E). destruct k as [[]|]; cbn in E; injection E as -> ->.
        -- apply (co_do_left n b c r (Some JBreak)); auto.
        -- eapply co_do; eauto. now apply T.
        -- apply (co_do_left n b c r (Some JLeave)); auto.
        -- eapply co_do; eauto. now apply T.
      * intros C; inversion C; subst; shapes; repeat step;
          repeat match goal with H : tests _ _ _ |- _ => apply T in H; subst end;
          clear C; do 2 eexists; (split; [eassumption|reflexivity]).
    + intros q o q' o' C C' E.
      assert (exists r r', q ++ r = q' ++ r') as (r & r' & E').
      { destruct o as [[]|], o' as [[]|]; cbn in E; injection E as E; try discriminate;
          (exists (p false), (p false); exact E) || (exists [], []; now rewrite ?app_nil_r)
          || (exists (p false), []; now rewrite ?app_nil_r) || (exists [], (p false); now rewrite ?app_nil_r). }
      destruct (course_free _ _ _ C _ _ _ _ C' E'). congruence.
  - now rewrite map_length.
Qed.

(** ** Switches *)
Lemma strips_total x : exists s, strips x s.
Proof.
  induction x as [x IH] using node_ind'. destruct x as [i t sh]. 
  assert (D : (exists v y, sh = CaseStmt v y) \/ (exists y, sh = DefaultStmt y)
    \/ ~ case_label (Node i t sh)).
  { destruct sh; eauto; right; right; intros [(v & y & E)|(y & E)]; discriminate. }
  destruct D as [(v & y & ->)|[(y & ->)|N]].
  - destruct (IH y) as (s & Hs); [inkids|]. exists s. eapply st_case; eauto. reflexivity.
  - destruct (IH y) as (s & Hs); [inkids|]. exists s. eapply st_default; eauto. reflexivity.
  - eexists. now apply st_none.
Qed.
Lemma strips_course x s : strips x s -> forall p o, course x p o <-> course s p o.
Proof.
  induction 1 as [x N|n v x s E H IH|n x s E H IH]; intros p o; [reflexivity| |]; rewrite <- IH; split.
  - intros C; inversion C; subst; shapes; repeat step; auto.
  - intros C. eapply co_case; eauto.
  - intros C; inversion C; subst; shapes; repeat step; auto.
  - intros C. eapply co_default; eauto.
Qed.
Lemma strips_npZ x s : strips x s -> npZ x = npZ s.
Proof.
  induction 1 as [x N|n v x s E H IH|n x s E H IH]; auto; destruct n as [i t sh]; cbn in *; subst; auto.
Qed.
Lemma closed_leaves r z s : strips z s -> undivided s -> jump_of s <> None ->
  forall p o, courses (r ++ [z]) p o -> o <> None.
Proof.
  intros S U J. induction r as [|x r IH]; cbn; intros p o C; inversion C; subst; try discriminate; eauto.
  match goal with H : course _ _ None |- _ => rename H into Hz end.
  apply (strips_course _ _ S) in Hz. destruct (enum_undivided s U) as (_ & K). apply K in Hz.
  destruct Hz as [E|[]]. congruence.
Qed.
Lemma courses_stop g rest : (forall p o, courses g p o -> o <> None) ->
  forall p o, courses (g ++ rest) p o <-> courses g p o.
Proof.
  induction g as [|x g IH]; cbn; intros L p o.
  - exfalso. apply (L [] None); [constructor|reflexivity].
  - split; intros C; inversion C; subst.
    + apply cs_on; auto. apply IH; auto. intros q0 k D. apply (L (p0 ++ q0)). now constructor.
    + now apply cs_away.
    + apply cs_on; auto. apply IH; auto. intros q0 k D. apply (L (p0 ++ q0)). now constructor.
    + now apply cs_away.
Qed.

Definition entries (n : node) (l : list node) (off : nat) : reached := fun p o =>
  exists before x rest q k, l = before ++ x :: rest /\ case_label x /\ courses (x :: rest) q k
    /\ p = Entered n (off + length before) :: q /\ o = after_switch k.
Lemma entries_group n c r rest off : case_label c -> (forall x, In x r -> ~ case_label x) ->
  forall p o, entries n ((c :: r) ++ rest) off p o <->
    (exists q k, courses ((c :: r) ++ rest) q k /\ p = [Entered n off] ++ q /\ o = after_switch k)
    \/ entries n rest (off + length (c :: r)) p o.
Proof.
  intros Hc Hr p o. split.
  - intros (before & x & rs & q & k & E & Hx & C & -> & ->).
    destruct before as [|b before]; cbn in E; injection E as <- E.
    + left. exists q, k. cbn [app]. rewrite E, Nat.add_0_r. auto.
    + right. assert (exists b', before = r ++ b' /\ rest = b' ++ x :: rs) as (b' & -> & ->).
      { clear - E Hr Hx. revert before E. induction r as [|y r IH]; cbn; intros before E; [exists before; auto|].
        destruct before as [|z before]; cbn in E; injection E as <- E.
        - exfalso. apply (Hr y); cbn; auto.
        - destruct (IH (fun x H => Hr x (or_intror H)) before E) as (b' & -> & ->). exists b'. auto. }
      exists b', x, rs, q, k. split; auto. split; auto. split; auto. split; auto.
      f_equal. f_equal. cbn. rewrite app_length. lia.
  - intros [(q & k & C & -> & ->)|(before & x & rs & q & k & -> & Hx & C & -> & ->)].
    + exists [], c, (r ++ rest), q, k. cbn. rewrite Nat.add_0_r. auto.
    + exists ((c :: r) ++ before), x, rs, q, k. rewrite <- app_assoc. split; auto. split; auto. split; auto.
      split; auto. f_equal. f_equal. rewrite app_length. lia.
Qed.
Lemma closed_tail P g gs : closed_by P (g :: gs) -> closed_by P gs.
Proof. intros H before x h after E. apply (H (g :: before) x h after). cbn. now rewrite E. Qed.
Lemma enum_groups n groups : forall off ls,
  (forall g, In g groups -> exists c rest, g = c :: rest /\ case_label c
                              /\ forall x, In x rest -> ~ case_label x) ->
  closed_by (fun s => undivided s /\ jump_of s <> None) groups ->
  Forall2 (fun g l => enumerates (courses g) l) groups ls ->
  exists l, enumerates (entries n (concat groups) off) l
            /\ length l = fold_right (fun l k => length l + k) 0 ls.
Proof.
  induction groups as [|g groups IH]; intros off ls G Cl F; inversion F; subst.
  - exists []. split; auto. split; [constructor|]. intros p o. split; [intros []|].
    intros (before & x & rest & q & k & E & _). destruct before; discriminate.
  - destruct (G g (or_introl eq_refl)) as (c & r & -> & Hc & Hr).
    destruct (IH (off + length (c :: r)) l') as (l2 & E2 & L2); auto.
    { intros; apply G; cbn; auto. }
    { eapply closed_tail; eauto. }
    assert (E1 : enumerates (courses ((c :: r) ++ concat groups)) y).
    { destruct groups as [|h after]; [cbn; rewrite app_nil_r; auto|].
      destruct (Cl [] (c :: r) h after eq_refl) as (r0 & z & s & E & S & U & J).
      eapply enum_ext; [|eassumption]. intros p o. rewrite courses_stop; [reflexivity|].
      rewrite E. eapply closed_leaves; eauto. }
    eexists. split.
    + eapply enum_ext; [|apply enum_union;
        [exact (enum_prefixed _ _ [Entered n off] after_switch E1 (free_courses _))|exact E2|]].
      * intros p o. cbn [concat]. now rewrite entries_group.
      * intros p o (q & k & _ & -> & _) (before & x & rest & q' & k' & _ & _ & _ & E & _).
        cbn in E. injection E as E _. lia.
    + cbn. now rewrite app_length, map_length, L2.
Qed.
Lemma enum_switch n pre c b cov l groups ls :
  n_shape n = SwitchStmt pre c b cov -> n_shape b = CompoundStmt l -> case_groups l [] groups ->
  (exists x, In x l /\ default_label x) ->
  closed_by (fun s => undivided s /\ jump_of s <> None) groups ->
  Forall2 (fun g l => enumerates (courses g) l) groups ls ->
  exists k, enumerates (course n) k /\ length k = fold_right (fun l k => length l + k) 0 ls
  /\ ((forall g p o, In g groups -> courses g p o -> o = None \/ o = Some JBreak) ->
      forall p o, course n p o -> o = None).
Proof.
  intros S B G D Cl F. destruct G as (E & _ & G). cbn in E.
  destruct (enum_groups n groups 0 ls G Cl F) as (k & Ek & Lk).
  assert (I : forall p o, entries n (concat groups) 0 p o <-> course n p o).
  { intros p o. rewrite <- E. split.
    - intros (before & x & rest & q & j & El & Hx & C & -> & ->). eapply co_enter; eauto.
    - intros C; inversion C; subst; shapes; repeat step.
      + rewrite B in H0. injection H0 as H0. eexists _, _, _, _, _. rewrite H0. eauto 8.
      + rewrite B in H0. injection H0 as H0. destruct D as (x & Hx & Dx). exfalso. eapply H1; eauto.
        now rewrite <- H0. }
  exists k. split; [eapply enum_ext; eauto|]. split; auto.
  intros O p o C. apply I in C. destruct C as (before & x & rest & q & j & El & Hx & C & _ & ->).
  clear - O El Hx C G Cl.
  enough (j = None \/ j = Some JBreak) as [-> | ->] by auto.
  revert before El. induction groups as [|g groups IH]; intros before El; [destruct before; discriminate|].
  cbn in El. destruct (G g (or_introl eq_refl)) as (c & r & -> & Hc & Hr).
  assert (T : before = [] \/ exists b', before = (c :: r) ++ b' /\ concat groups = b' ++ x :: rest).
  { destruct before as [|b0 before]; [auto|right]. cbn in El. injection El as <- El.
    clear - El Hr Hx. revert before El. induction r as [|y r IH]; cbn; intros before E; [exists before; auto|].
    destruct before as [|z before]; cbn in E; injection E as <- E.
    - exfalso. apply (Hr y); cbn; auto.
    - destruct (IH (fun x H => Hr x (or_intror H)) before E) as (b' & Eb & ->). exists b'. cbn in *.
      injection Eb as ->. auto. }
  destruct T as [->|(b' & _ & E')].
  - cbn in El. injection El as -> El. rewrite <- El in C.
    destruct groups as [|h after].
    + cbn in C. rewrite app_nil_r in C. eapply O; [|exact C]. cbn; auto.
    + destruct (Cl [] (x :: r) h after eq_refl) as (r0 & z & s & E & S & U & J).
      change (x :: r ++ concat (h :: after)) with ((x :: r) ++ concat (h :: after)) in C.
      rewrite courses_stop in C by (rewrite E; eapply closed_leaves; eauto).
      eapply O; [|exact C]. cbn; auto.
  - apply (IH (fun g Hg => G g (or_intror Hg)) (closed_tail _ _ _ Cl)
      (fun g p o Hg => O g p o (or_intror Hg)) b' E').
Qed.

(** ** Counting *)
Lemma product_pos (l : list node) : (forall x, In x l -> (1 <= npZ x)%Z) -> (1 <= product (map npZ l))%Z.
Proof.
  induction l as [|x l IH]; intros H; cbn; [lia|]. specialize (IH (fun y Hy => H y (or_intror Hy))).
  pose proof (H x (or_introl eq_refl)). unfold product in IH. nia.
Qed.
Lemma enum_list_bound l : (forall x, In x l -> (1 <= npZ x)%Z
    /\ exists k, enumerates (course x) k /\ (Z.of_nat (length k) <= npZ x)%Z) ->
  exists k, enumerates (courses l) k /\ (Z.of_nat (length k) <= product (map npZ l))%Z.
Proof.
  induction l as [|x l IH]; intros H.
  - exists [([], None)]. split; [apply enum_nil|]. cbn. lia.
  - destruct IH as (kl & El & Ll); [intros; apply H; cbn; auto|].
    destruct (H x (or_introl eq_refl)) as (P & kx & Ex & Lx).
    destruct (enum_cons x l kx kl Ex El) as (k & E & L & _). exists k. split; auto.
    assert (Q : (1 <= product (map npZ l))%Z) by (apply product_pos; intros; apply H; cbn; auto).
    cbn [map product fold_right]. fold (product (map npZ l)).
    assert (M : (Z.of_nat (Nat.max 1 (length kl)) <= product (map npZ l))%Z) by lia.
    assert (Z.of_nat (length k) <= Z.of_nat (length kx) * Z.of_nat (Nat.max 1 (length kl)))%Z by lia.
    nia.
Qed.
Lemma groups_lists {A} (P : list node -> A -> Prop) groups :
  (forall g, In g groups -> exists k, P g k) -> exists ls, Forall2 P groups ls.
Proof.
  induction groups as [|g gs IH]; intros H; [exists []; constructor|].
  destruct IH as (ls & F); [intros; apply H; cbn; auto|].
  destruct (H g (or_introl eq_refl)) as (k & K). exists (k :: ls). now constructor.
Qed.
Lemma sum_bound groups (ls : list (list (list decision * option jump))) :
  Forall2 (fun g k => enumerates (courses g) k /\ (Z.of_nat (length k) <= product (map npZ g))%Z) groups ls ->
  (Z.of_nat (fold_right (fun l k => (length l + k)%nat) 0%nat ls) <= sum (map (fun g => product (map npZ g)) groups))%Z.
Proof. induction 1 as [|g k gs ks (_ & L) F IH]; cbn; [lia|]. unfold sum in IH. lia. Qed.
Lemma sum_exact groups (ls : list (list (list decision * option jump))) :
  Forall2 (fun g k => enumerates (courses g) k /\ Z.of_nat (length k) = product (map npZ g)) groups ls ->
  (Z.of_nat (fold_right (fun l k => (length l + k)%nat) 0%nat ls) = sum (map (fun g => product (map npZ g)) groups))%Z.
Proof. induction 1 as [|g k gs ks (_ & L) F IH]; cbn; [lia|]. unfold sum in IH. lia. Qed.
Lemma switch_npZ n pre c b cov l groups : n_shape n = SwitchStmt pre c b cov -> n_shape b = CompoundStmt l ->
  case_groups l [] groups -> npZ n = (exZ c + sum (map (fun g => product (map npZ g)) groups))%Z.
Proof.
  intros S B G. destruct n as [i t sh]; cbn in S; subst. destruct b as [j u sb]; cbn in B; subst. cbn [npZ].
  now rewrite (groups_case npZ _ _ _ (exZ c) G).
Qed.
Lemma default_is_label x : default_label x -> case_label x.
Proof. intros D. inversion D; subst; [right|left]; eauto. Qed.
Lemma undivided_npZ n : undivided n -> npZ n = 1%Z.
Proof. destruct n as [i t s]. unfold undivided. cbn. destruct s; auto; contradiction. Qed.

Lemma countable_bound n : countable n -> (1 <= npZ n)%Z
  /\ exists k, enumerates (course n) k /\ (Z.of_nat (length k) <= npZ n)%Z.
Proof.
  induction 1 as [n U|n l S H IH|n pre c a e S P Ha IHa He IHe|n pre c b S P Hb IHb|n c b S P Hb IHb
    |n i pre c inc b S Hi Hc Hb IHb|n e c b S Hb IHb|n pre c b cov l groups S B G D Cl H IH].
  - rewrite undivided_npZ by auto. split; [lia|]. eexists. split; [now apply enum_undivided|]. cbn. lia.
  - destruct (enum_list_bound l IH) as (k & E & L). destruct n as [i t s]; cbn in S; subst. cbn [npZ]. split.
    + apply product_pos. intros x Hx. apply IH, Hx.
    + exists k. split; auto. eapply enum_block; eauto. reflexivity.
  - destruct IHa as (Pa & ka & Ea & La).
    assert (exists kb, match e with Some b => enumerates (course b) kb | None => kb = [([], None)] end
      /\ (Z.of_nat (length kb) <= match e with Some e => npZ e | None => 1 end)%Z
      /\ (1 <= match e with Some e => npZ e | None => 1 end)%Z) as (kb & Eb & Lb & Pb).
    { destruct e as [b|]; [|eexists; split; [reflexivity|cbn; lia]].
      destruct (IHe b eq_refl) as (Pb & kb & Eb & Lb). eauto. }
    destruct (enum_if n pre c a e ka kb S P Ea Eb) as (k & E & L).
    destruct n as [i t s]; cbn in S; subst. cbn [npZ]. rewrite plain_exZ by auto. split; [lia|].
    exists k. split; auto. lia.
  - destruct IHb as (Pb & kb & Eb & Lb).
    destruct (enum_test_first n c b kb) as (k & E & L & _); auto.
    { unfold test_first. rewrite S. auto. }
    destruct n as [i t s]; cbn in S; subst. cbn [npZ]. rewrite plain_exZ by auto. split; [lia|].
    exists k. split; auto. lia.
  - destruct IHb as (Pb & kb & Eb & Lb).
    destruct (enum_do n b c kb S P Eb) as (k & E & L).
    destruct n as [i t s]; cbn in S; subst. cbn [npZ]. rewrite plain_exZ by auto. split; [lia|].
    exists k. split; auto. lia.
  - destruct IHb as (Pb & kb & Eb & Lb).
    assert (exists k, enumerates (course n) k /\ length k <= 1 + length kb) as (k & E & L).
    { destruct c as [c|].
      - destruct (enum_test_first n c b kb) as (k & E & L & _); auto; [|exists k; split; auto; lia].
        unfold test_first. rewrite S. auto.
      - destruct (enum_forever n b kb) as (k & E & L); auto; [|exists k; split; auto; lia].
        unfold test_first. rewrite S. auto. }
    assert (1 <= match i with Some i => npZ i | None => 1 end)%Z.
    { destruct i as [x|]; [|lia]. rewrite undivided_npZ; auto; lia. }
    pose proof (oexZ_nonneg c). pose proof (oexZ_nonneg inc).
    destruct n as [j t s]; cbn in S; subst. cbn [npZ]. split; [lia|]. exists k. split; auto. lia.
  - destruct IHb as (Pb & kb & Eb & Lb).
    destruct (enum_each n b kb) as (k & E & L); auto.
    { unfold for_each. rewrite S. auto. }
    destruct n as [i t s]; cbn in S; subst. cbn [npZ]. split; [lia|].
    exists k. split; auto. lia.
  - assert (K : forall x, In x l -> (1 <= npZ x)%Z
      /\ exists k, enumerates (course x) k /\ (Z.of_nat (length k) <= npZ x)%Z).
    { intros x Hx. destruct (strips_total x) as (s & Hs). destruct (IH x s Hx Hs) as (Q & k & E & L).
      rewrite (strips_npZ x s Hs). split; auto. exists k. split; auto.
      eapply enum_ext; [|exact E]. intros. now rewrite (strips_course _ _ Hs). }
    assert (In' : forall g x, In g groups -> In x g -> In x l).
    { intros g x Hg Hx. destruct G as (E & _). eapply in_groups; eauto. }
    destruct (groups_lists (fun g k => enumerates (courses g) k /\ (Z.of_nat (length k) <= product (map npZ g))%Z)
      groups) as (ls & F).
    { intros g Hg. apply enum_list_bound. eauto. }
    pose proof (sum_bound _ _ F) as SB.
    destruct (enum_switch n pre c b cov l groups ls S B G D Cl) as (k & E & L & _).
    { clear - F. induction F as [|g k gs ks (E & _) F IH]; constructor; auto. }
    rewrite (switch_npZ _ _ _ _ _ _ _ S B G). pose proof (exZ_nonneg c). split.
    + destruct D as (x & Hx & Dx). destruct groups as [|g gs].
      { destruct G as (El & _). cbn in El. subst. destruct Hx. }
      cbn [map sum fold_right]. fold (sum (map (fun g => product (map npZ g)) gs)).
      assert (1 <= product (map npZ g))%Z.
      { apply product_pos. intros y Hy. apply K. eapply In'; cbn; eauto. }
      assert (0 <= sum (map (fun g => product (map npZ g)) gs))%Z; [|lia].
      clear - In' K. assert (Q : forall h, In h gs -> (1 <= product (map npZ h))%Z).
      { intros h Hh. apply product_pos. intros y Hy. apply K. eapply In'; cbn; eauto. }
      clear - Q. induction gs as [|h gs IH]; cbn; [lia|]. unfold sum in IH.
      pose proof (Q h (or_introl eq_refl)). specialize (IH (fun x Hx => Q x (or_intror Hx))). lia.
    + exists k. split; auto. lia.
Qed.

Lemma break_course s p o : n_shape s = BreakStmt -> course s p o -> p = [] /\ o = Some JBreak.
Proof.
  intros S C. assert (U : undivided s) by (unfold undivided; now rewrite S).
  destruct (enum_undivided s U) as (_ & K). apply K in C. destruct C as [E|[]]. injection E as <- <-.
  unfold jump_of. now rewrite S.
Qed.
Lemma enum_list_exact l : (forall x, In x l -> (forall p o, course x p o -> o = None)
    /\ exists k, enumerates (course x) k /\ Z.of_nat (length k) = npZ x) ->
  (forall p o, courses l p o -> o = None)
  /\ exists k, enumerates (courses l) k /\ Z.of_nat (length k) = product (map npZ l).
Proof.
  induction l as [|x l IH]; intros H.
  - split; [intros p o C; inversion C; auto|]. exists [([], None)]. split; [apply enum_nil|]. reflexivity.
  - destruct IH as (N & kl & El & Ll); [intros; apply H; cbn; auto|].
    destruct (H x (or_introl eq_refl)) as (P & kx & Ex & Lx). split.
    + intros p o C; inversion C; subst; eauto.
    + destruct (enum_cons x l kx kl Ex El) as (k & E & _ & L & _). exists k. split; auto.
      cbn [map product fold_right]. fold (product (map npZ l)). rewrite L by auto. lia.
Qed.
Lemma courses_snoc r z kr kz : (forall p o, courses r p o -> o = None) ->
  enumerates (courses r) kr -> enumerates (course z) kz ->
  exists k, enumerates (courses (r ++ [z])) k /\ length k = length kr * length kz
  /\ forall p o, courses (r ++ [z]) p o -> exists q, course z q o.
Proof.
  intros N Er Ez.
  assert (I : forall p o, courses (r ++ [z]) p o <-> exists a b, courses r a None /\ course z b o /\ p = a ++ b).
  { clear Er Ez kr kz. induction r as [|x r IH]; cbn; intros p o; split.
    - intros C; inversion C; subst.
      + match goal with K : courses [] _ _ |- _ => inversion K; subst end.
        exists [], p0. rewrite app_nil_r. split; [constructor|auto].
      + exists [], p. split; [constructor|auto].
    - intros (a & b & C & D & ->). inversion C; subst. cbn. destruct o; [now constructor|].
      rewrite <- (app_nil_r b). apply cs_on; auto; constructor.
    - assert (N' : forall p o, courses r p o -> forall q, course x q None -> o = None).
      { intros p1 o1 C1 q1 C2. apply (N (q1 ++ p1)). now apply cs_on. }
      intros C; inversion C; subst.
      + match goal with K : courses (r ++ [z]) _ _ |- _ => apply IH in K; [|eauto]; destruct K as (a & b & A & B & ->) end. exists (p0 ++ a), b.
        split; [now apply cs_on|]. split; auto. apply app_assoc.
      + assert (Some j = None) by (eapply N; eapply cs_away; eauto). discriminate.
    - intros (a & b & C & D & ->). inversion C; subst. rewrite <- app_assoc. apply cs_on; auto.
      apply IH; eauto. intros p1 o1 C1. apply (N (p ++ p1)). now apply cs_on. }
  exists (flat_map (fun c => match snd c with
                              | None => map (fun d => (fst c ++ fst d, snd d)) kz
                              | Some _ => [c] end) kr).
  destruct (enum_seq _ _ _ _ Er (free_courses r) Ez) as (E & _ & L & _). split; [|split].
  - eapply enum_ext; [|exact E]. intros p o. rewrite I. split.
    + intros [(q & x & Hq & Hr & ->)|(j & -> & Hp)]; [eauto 8|]. apply N in Hp. discriminate.
    + intros (a & b & C & D & ->). left. eauto 8.
  - apply L. auto.
  - intros p o C. apply I in C. destruct C as (a & b & _ & C & _). eauto.
Qed.
Lemma group_exact g : g <> [] ->
  (forall r z, g = r ++ [z] ->
     (forall x, In x r -> (forall p o, course x p o -> o = None)
         /\ exists k, enumerates (course x) k /\ Z.of_nat (length k) = npZ x)
     /\ ((exists s, strips z s /\ n_shape s = BreakStmt)
         \/ (forall p o, course z p o -> o = None)
            /\ exists k, enumerates (course z) k /\ Z.of_nat (length k) = npZ z)) ->
  (forall p o, courses g p o -> o = None \/ o = Some JBreak)
  /\ exists k, enumerates (courses g) k /\ Z.of_nat (length k) = product (map npZ g).
Proof.
  intros Ng H. destruct (exists_last Ng) as (r & z & ->). destruct (H r z eq_refl) as (Hr & Hz). clear H Ng.
  destruct (enum_list_exact r Hr) as (N & kr & Er & Lr).
  assert (exists kz, enumerates (course z) kz /\ Z.of_nat (length kz) = npZ z
    /\ forall p o, course z p o -> o = None \/ o = Some JBreak) as (kz & Ez & Lz & Oz).
  { destruct Hz as [(s & Hs & B)|(O & kz & E & L)]; [|exists kz; split; auto; split; eauto].
    assert (U : undivided s) by (unfold undivided; now rewrite B).
    exists [([], jump_of s)]. split; [|split].
    - eapply enum_ext; [|exact (enum_undivided s U)]. intros. now rewrite (strips_course _ _ Hs).
    - rewrite (strips_npZ _ _ Hs), undivided_npZ by auto. reflexivity.
    - intros p o C. apply (strips_course _ _ Hs) in C. apply break_course in C; auto. destruct C; auto. }
  destruct (courses_snoc r z kr kz N Er Ez) as (k & E & L & O). split.
  - intros p o C. destruct (O p o C) as (q & D). eauto.
  - exists k. split; auto. rewrite map_app. cbn.
    assert (P : forall l, product (l ++ [npZ z]) = (product l * npZ z)%Z).
    { unfold product. induction l; cbn [app fold_right]; [ring|rewrite IHl; ring]. }
    rewrite P. lia.
Qed.
Lemma structured_exact n : structured n -> (forall p o, course n p o -> o = None)
  /\ exists k, enumerates (course n) k /\ Z.of_nat (length k) = npZ n.
Proof.
  induction 1 as [n U J|n l S H IH|n pre c a e S P Ha IHa He IHe|n pre c b S P Hb IHb
    |n pre c b cov l groups S B P G D Cl Br H IH].
  - pose proof (enum_undivided n U) as E. split.
    + intros p o C. apply (proj2 E) in C. destruct C as [K|[]]. congruence.
    + rewrite undivided_npZ by auto. eauto.
  - destruct (enum_list_exact l IH) as (N & k & E & L). split.
    + intros p o C; inversion C; subst; shapes. repeat step. eauto.
    + destruct n as [i t s]; cbn in S; subst. cbn [npZ]. exists k. split; auto.
      eapply enum_block; eauto. reflexivity.
  - destruct IHa as (Na & ka & Ea & La).
    assert (exists kb, match e with Some b => enumerates (course b) kb | None => kb = [([], None)] end
      /\ Z.of_nat (length kb) = match e with Some e => npZ e | None => 1%Z end) as (kb & Eb & Lb).
    { destruct e as [b|]; [|eexists; split; [reflexivity|reflexivity]].
      destruct (IHe b eq_refl) as (Pb & kb & Eb & Lb). eauto. }
    destruct (enum_if n pre c a e ka kb S P Ea Eb) as (k & E & L). split.
    + intros p o C; inversion C; subst; shapes; repeat step; eauto.
      match goal with K : course ?b _ ?o |- ?o = None => destruct (IHe b eq_refl) as (Nb & _); eauto end.
    + destruct n as [i t s]; cbn in S; subst. cbn [npZ]. rewrite plain_exZ by auto.
      exists k. split; auto. lia.
  - destruct IHb as (Nb & kb & Eb & Lb).
    destruct (enum_test_first n c b kb) as (k & E & L & O); auto.
    { unfold test_first. rewrite S. auto. }
    split; [apply O; auto|].
    destruct n as [i t s]; cbn in S; subst. cbn [npZ]. rewrite plain_exZ by auto.
    exists k. split; auto. lia.
  - assert (St : forall x s, strips x s -> ((forall p o, course s p o -> o = None)
         /\ exists k, enumerates (course s) k /\ Z.of_nat (length k) = npZ s) ->
       (forall p o, course x p o -> o = None)
         /\ exists k, enumerates (course x) k /\ Z.of_nat (length k) = npZ x).
    { intros x s Hs (N & k & E & L). split.
      - intros p o C. apply (strips_course _ _ Hs) in C. eauto.
      - exists k. rewrite (strips_npZ _ _ Hs). split; auto. eapply enum_ext; [|exact E].
        intros. now rewrite (strips_course _ _ Hs). }
    assert (Gr : forall g, In g groups -> (forall p o, courses g p o -> o = None \/ o = Some JBreak)
      /\ exists k, enumerates (courses g) k /\ Z.of_nat (length k) = product (map npZ g)).
    { intros g Hg. apply group_exact.
      - destruct G as (_ & _ & G). destruct (G g Hg) as (x & r & -> & _). discriminate.
      - assert (In' : forall x, In x g -> In x l).
        { intros x Hx. destruct G as (E & _). eapply in_groups; eauto. }
        assert (Dec : forall s, n_shape s = BreakStmt \/ n_shape s <> BreakStmt).
        { intros s. destruct (n_shape s); (left; reflexivity) || (right; discriminate). }
        intros r z E. split.
        + intros x Hx. destruct (strips_total x) as (s & Hs). eapply St; eauto.
          apply (IH x s); auto; [apply In'; rewrite E, in_app_iff; auto|].
          intros K. apply in_split in Hx. destruct Hx as (r1 & r2 & ->). rewrite <- app_assoc in E. cbn in E.
          pose proof (Br g r1 x (r2 ++ [z]) s Hg E Hs K) as Q. destruct r2; discriminate.
        + destruct (strips_total z) as (s & Hs). destruct (Dec s) as [K|K]; [left; eauto|right].
          eapply St; eauto. apply (IH z s); auto. apply In'. rewrite E, in_app_iff. cbn; auto. }
    destruct (groups_lists (fun g k => enumerates (courses g) k /\ Z.of_nat (length k) = product (map npZ g))
      groups) as (ls & F).
    { intros g Hg. apply Gr, Hg. }
    pose proof (sum_exact _ _ F) as SB.
    destruct (enum_switch n pre c b cov l groups ls S B G D) as (k & E & L & O).
    { intros before g h after Eg. destruct (Cl before g h after Eg) as (r & z & s & E & Hs & Bs).
      exists r, z, s. unfold undivided, jump_of. rewrite Bs. repeat split; auto. discriminate. }
    { clear - F. induction F as [|g k gs ks (E & _) F IH]; constructor; auto. }
    split; [apply O; intros g p o Hg; apply Gr, Hg|].
    rewrite (switch_npZ _ _ _ _ _ _ _ S B G). rewrite plain_exZ by auto. exists k. split; auto. lia.
Qed.
