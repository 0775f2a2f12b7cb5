(** * Drawing flow graphs *)
From Verif Require Import Base ModelAST SpecAST SpecCourses SpecFlowGraph BaseFacts.

Scheme drawable_mut := Minimality for drawable Sort Prop
  with drawables_mut := Minimality for drawables Sort Prop
  with drawable_handlers_mut := Minimality for drawable_handlers Sort Prop.
Combined Scheme drawable_ind3 from drawable_mut, drawables_mut, drawable_handlers_mut.

(** A piece of a graph: different vertices, all its own; edges start in it and end in it or at
    places outside. *)
Definition piece (own out : nat -> Prop) (V : list nat) (E : list edge) : Prop :=
  NoDup V /\ (forall x, In x V -> own x) /\ (forall a b, In (a, b) E -> In a V /\ (In b V \/ out b)).
Lemma nodup_join {A} (a b : list A) : NoDup a -> NoDup b -> (forall x, In x a -> In x b -> False) -> NoDup (a ++ b).
Proof.
  induction a as [|x a IH]; intros Na Nb H; auto. inversion Na; subst. cbn. constructor.
  - rewrite in_app_iff. intros [K|K]; [auto|]. eapply H; cbn; eauto.
  - apply IH; auto. intros y I J. eapply H; cbn; eauto.
Qed.
Lemma piece_app o1 u1 V1 E1 o2 u2 V2 E2 (o u : nat -> Prop) : piece o1 u1 V1 E1 -> piece o2 u2 V2 E2 ->
  (forall x, o1 x -> o2 x -> False) -> (forall x, o1 x \/ o2 x -> o x) ->
  (forall b, u1 b \/ u2 b -> In b (V1 ++ V2) \/ u b) -> piece o u (V1 ++ V2) (E1 ++ E2).
Proof.
  intros (N1 & O1 & A1) (N2 & O2 & A2) D O U. split; [|split].
  - apply nodup_join; auto. intros x I J. eapply D; eauto.
  - intros x I. apply in_app_or in I as [I|I]; apply O; auto.
  - intros a b I. rewrite in_app_iff. apply in_app_or in I as [I|I]; [apply A1 in I as [I [J|J]]|apply A2 in I as [I [J|J]]]; split; auto;
      try (left; apply in_or_app; auto); apply U; auto.
Qed.
Lemma piece_nil (o u : nat -> Prop) : piece o u [] [].
Proof. split; [constructor|]. split; intros; contradiction. Qed.
Lemma piece_one v outs (o u : nat -> Prop) : o v -> (forall b, In b outs -> b = v \/ u b) -> piece o u [v] (map (pair v) outs).
Proof.
  intros O U. split; [repeat constructor; auto|]. split.
  - intros x [->|[]]. auto.
  - intros a b I. apply in_map_iff in I as (c & K & I). injection K as -> ->. split; [now left|]. destruct (U _ I) as [->|]; cbn; auto.
Qed.
Lemma piece_weaken (o u o' u' : nat -> Prop) V E : piece o u V E -> (forall x, o x -> o' x) -> (forall b, u b -> In b V \/ u' b) -> piece o' u' V E.
Proof.
  intros (N & O & A) P Q. split; [auto|]. split; auto. intros a b I. apply A in I as [I [J|J]]; auto.
Qed.

Section Draw.
  Variable simple : node -> Prop.
  Notation evaluable := (evaluable simple).
  Definition can_value (e : node) : Prop := forall T i j k, i < k -> exists V E k', k <= k' /\ value simple T e i j V E /\ In i V
    /\ piece (fun x => x = i \/ k <= x < k') (fun b => b = j \/ b = t_leave T) V E.
  Definition can_values (l : list node) : Prop := forall T i j k, i < k -> exists s V E k', k <= k' /\ values simple T l s j V E
    /\ (In s V \/ s = j) /\ s = match l with [] => j | _ => i end
    /\ piece (fun x => x = i \/ k <= x < k') (fun b => b = j \/ b = t_leave T) V E.
  Lemma list_values l : (forall e, In e l -> can_value e) -> can_values l.
  Proof.
    induction l as [|e l IH]; intros H T i j k B.
    - exists j, [], [], k. split; auto. split; [constructor|]. split; [now right|]. split; auto. apply piece_nil.
    - destruct (IH (fun x I => H x (or_intror I)) T k j (S k) (le_n _)) as (s & V & E & k' & B' & X & I & _ & P).
      destruct (H e (or_introl eq_refl) T i s k' ltac:(lia)) as (V1 & E1 & k1 & B1 & X1 & I1 & P1).
      exists i, (V1 ++ V), (E1 ++ E), k1. split; [lia|]. split; [econstructor; eauto|]. split; [left; apply in_or_app; auto|]. split; auto.
      eapply piece_app; eauto; cbn.
      + intros x [->|?] [->|?]; lia.
      + intros x. lia.
      + intros b [[->| ->]|[->| ->]]; auto. destruct I as [I|I]; [left; apply in_or_app; now right|auto].
  Qed.
  Definition can_test (e : node) : Prop := forall T i yes no k, i < k -> exists V E k', k <= k' /\ test simple T e i yes no V E /\ In i V
    /\ piece (fun x => x = i \/ k <= x < k') (fun b => b = yes \/ b = no \/ b = t_leave T) V E.
  Lemma value_test e : can_value e -> can_test e.
  Proof.
    intros H T i yes no k B. destruct (H T i k (S k) ltac:(lia)) as (V & E & k' & B' & X & I & P).
    exists (V ++ [k]), (E ++ map (pair k) [yes; no]), k'. split; [lia|]. split; [apply ts_value; auto|]. split; [apply in_or_app; auto|].
    eapply piece_app; [exact P|apply (piece_one k _ (eq k) (fun b => b = yes \/ b = no)); cbn; intuition|..]; cbn.
    - intros x. lia.
    - intros x. lia.
    - intros b [[->| ->]|?]; rewrite ?in_app_iff; cbn; intuition.
  Qed.
  Lemma evaluable_value e : evaluable e -> can_value e.
  Proof.
    induction 1 as [e K H IH|e x K H IH|e o l r K O Hl IHl Hr IHr|e c x y K Hc IHc Hx IHx Hy IHy]; intros T i j k B.
    - pose proof (list_values _ IH) as L. destruct (kids e) as [|a q] eqn:Q.
      + exists [i], [(i, j)], k. split; auto. split; [|split; [now left|]].
        * apply (va_turn simple T e i i j [] []); auto. rewrite Q. constructor.
        * apply (piece_one i [j]); auto. cbn. intuition.
      + destruct (L T i k (S k) ltac:(lia)) as (s & V & E & k' & B' & X & I & -> & P).
        exists (V ++ [k]), (E ++ [(k, j)]), k'. split; [lia|]. split; [|split].
        * apply va_turn; auto. rewrite Q. auto.
        * destruct I as [I|I]; [apply in_or_app; auto|lia].
        * eapply piece_app; [exact P|apply (piece_one k [j] (eq k) (fun b => b = j)); cbn; intuition|..]; cbn.
          -- intros x. lia.
          -- intros x. lia.
          -- intros b [[->| ->]|?]; rewrite ?in_app_iff; cbn; intuition.
    - assert (L : can_values (opt x)).
      { apply list_values. intros y I. destruct x as [z|]; [|destruct I]. destruct I as [<-|[]]. auto. }
      destruct x as [z|]; cbn [opt] in *.
      + destruct (L T i k (S k) ltac:(lia)) as (s & V & E & k' & B' & X & I & -> & P).
        exists (V ++ [k]), (E ++ [(k, t_leave T)]), k'. split; [lia|]. split; [|split].
        * eapply va_throw; eauto.
        * destruct I as [I|I]; [apply in_or_app; auto|lia].
        * eapply piece_app; [exact P|apply (piece_one k [t_leave T] (eq k) (fun b => b = t_leave T)); cbn; intuition|..]; cbn.
          -- intros x. lia.
          -- intros x. lia.
          -- intros b [[->| ->]|?]; rewrite ?in_app_iff; cbn; intuition.
      + exists [i], [(i, t_leave T)], k. split; auto. split; [|split; [now left|]].
        * apply (va_throw simple T e None i i j [] []); auto. constructor.
        * apply (piece_one i [t_leave T]); auto. cbn. intuition.
    - destruct (IHr T k j (S k) ltac:(lia)) as (V2 & E2 & k2 & B2 & X2 & I2 & P2).
      destruct O as [-> | ->].
      + destruct (value_test l IHl T i k j k2 ltac:(lia)) as (V1 & E1 & k1 & B1 & X1 & I1 & P1).
        exists (V1 ++ V2), (E1 ++ E2), k1. split; [lia|]. split; [eapply va_and; eauto|]. split; [apply in_or_app; auto|].
        eapply piece_app; eauto; cbn.
        * intros x. lia.
        * intros x. lia.
        * intros b H. rewrite in_app_iff. intuition; subst; auto.
      + destruct (value_test l IHl T i j k k2 ltac:(lia)) as (V1 & E1 & k1 & B1 & X1 & I1 & P1).
        exists (V1 ++ V2), (E1 ++ E2), k1. split; [lia|]. split; [eapply va_or; eauto|]. split; [apply in_or_app; auto|].
        eapply piece_app; eauto; cbn.
        * intros x. lia.
        * intros x. lia.
        * intros b H. rewrite in_app_iff. intuition; subst; auto.
    - destruct (IHx T k j (S (S k)) ltac:(lia)) as (V2 & E2 & k2 & B2 & X2 & I2 & P2).
      destruct (IHy T (S k) j k2 ltac:(lia)) as (V3 & E3 & k3 & B3 & X3 & I3 & P3).
      destruct (value_test c IHc T i k (S k) k3 ltac:(lia)) as (V1 & E1 & k1 & B1 & X1 & I1 & P1).
      exists (V1 ++ V2 ++ V3), (E1 ++ E2 ++ E3), k1. split; [lia|]. split; [eapply va_choice; eauto|]. split; [apply in_or_app; auto|].
      eapply (piece_app _ _ _ _ (fun x => x = k \/ x = S k \/ S (S k) <= x < k3) (fun b => b = j \/ b = t_leave T)); [exact P1| |..].
      + eapply piece_app; [exact P2|exact P3|..]; cbn.
        * intros ?. lia.
        * intros ?. lia.
        * intros b H. rewrite in_app_iff. intuition.
      + cbn. intros ?. lia.
      + cbn. intros ?. lia.
      + cbn. intros b H. rewrite !in_app_iff. intuition; subst; auto.
  Qed.

  (** ** Statements *)
  Definition leaves (T : targets) (G : list str) (b : nat) : Prop :=
    b = t_leave T \/ t_break T = Some b \/ t_continue T = Some b \/ exists l, In l G /\ b = t_label T l.
  Definition labels_own (T : targets) (L : list str) (x : nat) : Prop := exists l, In l L /\ x = t_label T l.
  Definition labels_fine (T : targets) (k : nat) (L : list str) : Prop :=
    (forall l, In l L -> t_label T l < k) /\ (forall l l', In l L -> In l' L -> t_label T l = t_label T l' -> l = l') /\ NoDup L.
  Definition allowed (T : targets) (bk ct : bool) : Prop :=
    (bk = true -> exists x, t_break T = Some x) /\ (ct = true -> exists x, t_continue T = Some x).
  Definition drawn (T : targets) (sw : bool) (k j : nat) (d : nat) (L G : list str)
      (P : nat -> list nat -> list edge -> list nat -> list nat -> Prop) : Prop :=
    exists i V E C D k', k <= k' /\ P i V E C D /\ length D = d /\ (sw = false -> C = [] /\ D = []) /\ (In i V \/ i = j)
      /\ incl C V /\ incl D V /\ (forall l, In l L -> In (t_label T l) V)
      /\ piece (fun x => k <= x < k' \/ labels_own T L x) (fun b => b = j \/ leaves T G b) V E.
  Lemma fine_app T k L L' : labels_fine T k (L ++ L') -> labels_fine T k L /\ labels_fine T k L'
    /\ forall x, labels_own T L x -> labels_own T L' x -> False.
  Proof.
    intros (A & B & C). split; [|split].
    - split; [|split]; intros; [apply A|apply B|]; auto using in_or_app.
      clear - C. induction L; [constructor|]. cbn in C. inversion C; subst. constructor; auto. intros I. apply H1, in_or_app. auto.
    - split; [|split]; intros; [apply A|apply B|]; auto using in_or_app.
      clear - C. induction L; auto. cbn in C. inversion C; auto.
    - intros x (l & I & ->) (l' & I' & E). apply B in E; [|apply in_or_app; auto|apply in_or_app; auto]. subst l'.
      clear - C I I'. induction L as [|a L IH]; [destruct I|]. cbn in C. inversion C; subst. destruct I as [->|I]; auto.
      apply H1, in_or_app. auto.
  Qed.
  Lemma fine_later T k k' L : labels_fine T k L -> k <= k' -> labels_fine T k' L.
  Proof. intros (A & B & C) Q. split; [|auto]. intros l I. apply A in I. lia. Qed.
  Lemma fine_below T k L x : labels_fine T k L -> labels_own T L x -> x < k.
  Proof. intros (A & _) (l & I & ->). auto. Qed.
  Lemma own_app T L L' x : labels_own T (L ++ L') x <-> labels_own T L x \/ labels_own T L' x.
  Proof.
    split.
    - intros (l & I & ->). apply in_app_or in I as [I|I]; [left|right]; exists l; auto.
    - intros [(l & I & ->)|(l & I & ->)]; exists l; split; auto; apply in_or_app; auto.
  Qed.
  Lemma own_nil T x : ~ labels_own T [] x.
  Proof. intros (l & [] & _). Qed.
  Lemma leaves_app T G G' b : leaves T (G ++ G') b <-> leaves T G b \/ leaves T G' b.
  Proof.
    unfold leaves. split.
    - intros [H|[H|[H|(l & I & ->)]]]; auto. apply in_app_or in I as [I|I]; [left|right]; eauto 6.
    - intros [[H|[H|[H|(l & I & ->)]]]|[H|[H|[H|(l & I & ->)]]]]; auto; right; right; right; exists l; split; auto; apply in_or_app; auto.
  Qed.
  Lemma leaves_loop T j m G b : leaves (in_loop T j m) G b -> b = j \/ b = m \/ leaves T G b.
  Proof. unfold leaves. cbn. intros [H|[H|[H|H]]]; [auto|injection H as ->; auto|injection H as ->; auto|auto 8]. Qed.
  Lemma leaves_switch T j G b : leaves (in_switch T j) G b -> b = j \/ leaves T G b.
  Proof. unfold leaves. cbn. intros [H|[H|[H|H]]]; [auto|injection H as ->; auto|auto 8|auto 8]. Qed.
  Lemma leaves_exit T G : leaves T G (t_leave T).
  Proof. now left. Qed.
  Lemma fine_loop T j m k L : labels_fine T k L -> labels_fine (in_loop T j m) k L.
  Proof. auto. Qed.
  Lemma fine_switch T j k L : labels_fine T k L -> labels_fine (in_switch T j) k L.
  Proof. auto. Qed.
  Lemma allowed_loop T j m : allowed (in_loop T j m) true true.
  Proof. split; intros _; eexists; reflexivity. Qed.
  Lemma allowed_switch T j bk ct : allowed T bk ct -> allowed (in_switch T j) true ct.
  Proof. intros (A & B). split; auto. intros _. eexists. reflexivity. Qed.
  Lemma draw_list l : (forall x, In x l -> evaluable x) -> can_values l.
  Proof. intros H. apply list_values. auto using evaluable_value. Qed.
  Lemma draw_option o : (forall x, o = Some x -> evaluable x) -> can_values (opt o).
  Proof. intros H. apply draw_list. destruct o as [y|]; cbn; [|tauto]. intros x [<-|[]]. auto. Qed.
  Lemma draw_start T n i j V E : expression_or_declaration n -> value simple T n i j V E -> flow simple T n i j V E [] [].
  Proof. intros [H|(l & H)]; intros X; [now apply fl_expression|eapply fl_declaration; eauto]. Qed.
  (** An optional opening statement begins at [i], unless it is missing. *)
  Lemma draw_init o T i j k : (forall x, o = Some x -> expression_or_declaration x /\ evaluable x) -> i < k ->
    exists s V E k', k <= k' /\ flows simple T (opt o) s j V E [] [] /\ (In s V \/ s = j) /\ s = match o with None => j | _ => i end
      /\ piece (fun x => x = i \/ k <= x < k') (fun b => b = j \/ b = t_leave T) V E.
  Proof.
    intros H B. destruct o as [x|]; cbn [opt].
    - destruct (H x eq_refl) as [K X]. destruct (evaluable_value x X T i j k B) as (V & E & k' & B' & Y & I & P).
      exists i, V, E, k'. split; auto. split; [|auto]. rewrite <- (app_nil_r V), <- (app_nil_r E).
      apply (fs_next simple T x [] i j j V E [] [] [] [] [] []); [now apply draw_start|constructor].
    - exists j, [], [], k. split; auto. split; [constructor|]. split; [now right|]. split; auto. apply piece_nil.
  Qed.

  (** Declarations, then a test or a value. *)
  Lemma draw_condition pre c T i yes no k : (forall x, In x pre -> evaluable x) -> evaluable c -> i < k ->
    exists m Vp Ep Vc Ec k', k <= k' /\ values simple T pre i m Vp Ep /\ test simple T c m yes no Vc Ec /\ In i (Vp ++ Vc)
      /\ piece (fun x => x = i \/ k <= x < k') (fun b => b = yes \/ b = no \/ b = t_leave T) (Vp ++ Vc) (Ep ++ Ec).
  Proof.
    intros Hp Hc B. destruct pre as [|p pre].
    - destruct (value_test c (evaluable_value c Hc) T i yes no k B) as (V & E & k' & B' & X & I & P).
      exists i, [], [], V, E, k'. split; auto. split; [constructor|]. auto.
    - destruct (value_test c (evaluable_value c Hc) T k yes no (S k) (le_n _)) as (V & E & k' & B' & X & I & P).
      destruct (draw_list (p :: pre) Hp T i k k' ltac:(lia)) as (s & V' & E' & k2 & B2 & X2 & I2 & -> & P2).
      exists k, V', E', V, E, k2. split; [lia|]. split; [auto|]. split; [auto|]. split.
      + destruct I2 as [I2|I2]; [apply in_or_app; auto|lia].
      + eapply piece_app; [exact P2|exact P|..]; cbn.
        * intros x. lia.
        * intros x. lia.
        * intros b Q. rewrite in_app_iff. intuition; subst; auto.
  Qed.
  Lemma draw_scrutinee pre c T i j k : (forall x, In x pre -> evaluable x) -> evaluable c -> i < k ->
    exists m Vp Ep Vc Ec k', k <= k' /\ values simple T pre i m Vp Ep /\ value simple T c m j Vc Ec /\ In i (Vp ++ Vc)
      /\ piece (fun x => x = i \/ k <= x < k') (fun b => b = j \/ b = t_leave T) (Vp ++ Vc) (Ep ++ Ec).
  Proof.
    intros Hp Hc B. destruct pre as [|p pre].
    - destruct (evaluable_value c Hc T i j k B) as (V & E & k' & B' & X & I & P).
      exists i, [], [], V, E, k'. split; auto. split; [constructor|]. auto.
    - destruct (evaluable_value c Hc T k j (S k) (le_n _)) as (V & E & k' & B' & X & I & P).
      destruct (draw_list (p :: pre) Hp T i k k' ltac:(lia)) as (s & V' & E' & k2 & B2 & X2 & I2 & -> & P2).
      exists k, V', E', V, E, k2. split; [lia|]. split; [auto|]. split; [auto|]. split.
      + destruct I2 as [I2|I2]; [apply in_or_app; auto|lia].
      + eapply piece_app; [exact P2|exact P|..]; cbn.
        * intros x. lia.
        * intros x. lia.
        * intros b Q. rewrite in_app_iff. intuition; subst; auto.
  Qed.
  (** A body that goes on to [h] by itself or by [continue]. *)

  Ltac ends := cbn beta in *; intros;
    repeat match goal with
    | H : _ \/ _ |- _ => destruct H
    | H : _ /\ _ |- _ => destruct H
    | H : In _ (_ ++ _) |- _ => apply in_app_or in H
    | H : labels_own _ (_ ++ _) _ |- _ => apply own_app in H
    | H : labels_own _ [] _ |- _ => destruct (own_nil _ _ H)
    | H : leaves _ (_ ++ _) _ |- _ => apply leaves_app in H
    | H : labels_own (in_loop ?T _ _) ?L ?x |- _ => change (labels_own T L x) in H
    | H : labels_own (in_switch ?T _) ?L ?x |- _ => change (labels_own T L x) in H
    | H : leaves (in_loop _ _ _) _ _ |- _ => apply leaves_loop in H
    | H : leaves (in_switch _ _) _ _ |- _ => apply leaves_switch in H
    end; subst.
  Ltac apart := ends;
    try match goal with F3 : (forall x, labels_own _ _ x -> labels_own _ _ x -> False) |- _ => solve [eapply F3; eauto] end;
    repeat match goal with F : labels_fine _ _ ?L, H : labels_own _ ?L _ |- _ => first [apply (fine_below _ _ _ _ F) in H|fail 1] end;
    try lia; eauto.
  Ltac covered := ends; rewrite ?own_app; try (left; lia); auto 6.
  Ltac places := ends; rewrite ?in_app_iff; cbn [In]; rewrite ?in_app_iff; rewrite ?leaves_app; auto 12 using leaves_exit.

  Lemma draw_both :
    (forall bk ct sw n d L G, drawable simple bk ct sw n d L G -> forall T k j, allowed T bk ct -> labels_fine T k L ->
       drawn T sw k j d L G (fun i V E C D => flow simple T n i j V E C D))
    /\ (forall bk ct sw l d L G, drawables simple bk ct sw l d L G -> forall T k j, allowed T bk ct -> labels_fine T k L ->
       drawn T sw k j d L G (fun i V E C D => flows simple T l i j V E C D))
    /\ (forall bk ct sw l d L G, drawable_handlers simple bk ct sw l d L G -> forall T k j, allowed T bk ct -> labels_fine T k L ->
       exists starts, drawn T sw k j d L G (fun i V E C D => i = j /\ incl starts (j :: V) /\ handlers simple T l starts j V E C D)).
  Proof.
    apply drawable_ind3.
    - (* expression *)
      intros bk ct sw n K H T k j A F. destruct (evaluable_value n H T k j (S k) (le_n _)) as (V & E & k' & B & X & I & P).
      exists k, V, E, [], [], k'. split; [lia|]. split; [now apply draw_start|]. repeat split; auto; try (now intros ? []).
      + apply P.
      + intros x J. apply P in J. cbn in J. left. lia.
      + apply P in H0. tauto.
      + apply P in H0. destruct H0 as [_ [J|[->| ->]]]; auto using leaves_exit.
    - (* null *)
      intros bk ct sw n K T k j A F. exists k, [k], [(k, j)], [], [], (S k). split; [lia|]. split; [now constructor|].
      split; [auto|]. split; [auto|]. split; [cbn; auto|]. split; [intros ? []|]. split; [intros ? []|]. split; [intros ? []|].
      apply (piece_one k [j]); [left; lia|]. cbn. intuition.
    - (* block *)
      intros bk ct sw n l d L G K H IH T k j A F. destruct (IH T k j A F) as (i & V & E & C & D & k' & B & X & R).
      exists i, V, E, C, D, k'. split; auto. split; [|exact R]. econstructor; eauto.
    - (* if *)
      intros bk ct sw n pre c a d L G K Hp Hc Ha IH T k j A F.
      destruct (IH T (S (S k)) j A (fine_later T k (S (S k)) L F ltac:(lia))) as (ia & Va & Ea & C & D & ka & Ba & Xa & R1 & R2 & R3 & R4 & R5 & R6 & Pa).
      destruct (draw_condition pre c T k ia j ka Hp Hc ltac:(lia)) as (m & Vp & Ep & Vc & Ec & kc & Bc & Xp & Xc & Ic & Pc).
      exists k, (Vp ++ Vc ++ Va), (Ep ++ Ec ++ Ea), C, D, kc. split; [lia|]. split; [eapply fl_if; eauto|]. rewrite !app_assoc.
      split; [auto|]. split; [auto|]. split; [left; apply in_or_app; auto|].
      split; [intros ? Q; apply in_or_app; auto|]. split; [intros ? Q; apply in_or_app; auto|]. split; [intros ? Q; apply in_or_app; auto|].
      eapply piece_app; [exact Pc|exact Pa|..]; [apart|covered|places].
    - (* if else *)
      intros bk ct sw n pre c a b d L G d' L' G' K Hp Hc Ha IHa Hb IHb T k j A F.
      destruct (fine_app _ _ _ _ F) as (F1 & F2 & F3).
      destruct (IHa T (S k) j A (fine_later T k (S k) L F1 ltac:(lia))) as (ia & Va & Ea & C & D & ka & Ba & Xa & R1 & R2 & R3 & R4 & R5 & R6 & Pa).
      destruct (IHb T ka j A (fine_later T k ka L' F2 ltac:(lia))) as (ib & Vb & Eb & C' & D' & kb & Bb & Xb & S1 & S2 & S3 & S4 & S5 & S6 & Pb).
      destruct (draw_condition pre c T k ia ib kb Hp Hc ltac:(lia)) as (m & Vp & Ep & Vc & Ec & kc & Bc & Xp & Xc & Ic & Pc).
      exists k, (Vp ++ Vc ++ Va ++ Vb), (Ep ++ Ec ++ Ea ++ Eb), (C ++ C'), (D ++ D'), kc. split; [lia|]. split; [eapply fl_if_else; eauto|].
      split; [rewrite app_length; lia|]. split; [intros Z; destruct (R2 Z), (S2 Z); subst; auto|].
      rewrite !app_assoc. rewrite <- (app_assoc (Vp ++ Vc)), <- (app_assoc (Ep ++ Ec)).
      split; [left; apply in_or_app; auto|].
      split; [intros ? Q; rewrite !in_app_iff in *; destruct Q; auto|]. split; [intros ? Q; rewrite !in_app_iff in *; destruct Q; auto|].
      split; [intros ? Q; rewrite !in_app_iff in *; destruct Q; auto|].
      eapply (piece_app _ _ _ _ (fun x => S k <= x < kb \/ labels_own T (L ++ L') x) (fun b => b = j \/ leaves T (G ++ G') b)); [exact Pc| |..].
      + eapply piece_app; [exact Pa|exact Pb|..]; [apart|covered|places].
      + apart.
      + covered.
      + places.
    - (* while *)
      intros bk ct sw n pre c b d L G K Hp Hc Hb IH T k j A F.
      destruct (IH (in_loop T j k) (S k) k (allowed_loop _ _ _) (fine_later T k (S k) L F ltac:(lia))) as (ib & Vb & Eb & C & D & kb & Bb & Xb & R1 & R2 & R3 & R4 & R5 & R6 & Pb).
      destruct (draw_condition pre c T k ib j kb Hp Hc ltac:(lia)) as (m & Vp & Ep & Vc & Ec & kc & Bc & Xp & Xc & Ic & Pc).
      exists k, (Vp ++ Vc ++ Vb), (Ep ++ Ec ++ Eb), C, D, kc. split; [lia|]. split; [eapply fl_while; eauto|]. rewrite !app_assoc.
      split; [auto|]. split; [auto|]. split; [left; apply in_or_app; auto|].
      split; [intros ? Q; apply in_or_app; auto|]. split; [intros ? Q; apply in_or_app; auto|]. split; [intros ? Q; apply in_or_app; right; apply R6; auto|].
      eapply piece_app; [exact Pc|exact Pb|..]; [apart|covered|places].
    - (* do *)
      intros bk ct sw n c b d L G K Hc Hb IH T k j A F.
      destruct (IH (in_loop T j k) (S k) k (allowed_loop _ _ _) (fine_later T k (S k) L F ltac:(lia))) as (ib & Vb & Eb & C & D & kb & Bb & Xb & R1 & R2 & R3 & R4 & R5 & R6 & Pb).
      destruct (value_test c (evaluable_value c Hc) T k ib j kb ltac:(lia)) as (Vc & Ec & kc & Bc & Xc & Ic & Pc).
      exists ib, (Vb ++ Vc), (Eb ++ Ec), C, D, kc. split; [lia|]. split; [eapply fl_do; eauto|].
      split; [auto|]. split; [auto|]. split; [left; apply in_or_app; destruct R3 as [R3|R3]; [auto|right; subst; auto]|].
      split; [intros ? Q; apply in_or_app; auto|]. split; [intros ? Q; apply in_or_app; auto|]. split; [intros ? Q; apply in_or_app; left; apply R6; auto|].
      eapply piece_app; [exact Pb|exact Pc|..]; [apart|covered|places].
    - (* for *)
      intros bk ct sw n init pre c inc b d L G K Hi Hp Hc Hn Hb IH T k j A F.
      (* k: start, k+1: the test, k+2: the step, k+3: declarations *)
      set (st := match inc with None => S k | _ => S (S k) end).
      assert (F' := fine_later T k (S (S (S (S k)))) L F ltac:(lia)).
      destruct (IH (in_loop T j st) (S (S (S (S k)))) st (allowed_loop _ _ _) F') as (ib & Vb & Eb & C & D & kb & Bb & Xb & R1 & R2 & R3 & R4 & R5 & R6 & Pb).
      clear F'.
      destruct (draw_option inc Hn T (S (S k)) (S k) kb ltac:(lia)) as (s & Vn & En & kn & Bn & Xn & In' & Es & Pn).
      assert (Z : s = st) by (destruct inc; auto). clear Es. clearbody st. subst s.
      destruct (draw_init init T k (S k) kn Hi ltac:(lia)) as (s0 & Vi & Ei & ki & Bi & Xi & Ii & _ & Pi).
      destruct c as [c|].
      + destruct (draw_condition pre c T (S k) ib j ki Hp (Hc c eq_refl) ltac:(lia)) as (m & Vp & Ep & Vc & Ec & kc & Bc & Xp & Xc & Ic & Pc).
        exists s0, (Vi ++ Vp ++ Vc ++ Vb ++ Vn), (Ei ++ Ep ++ Ec ++ Eb ++ En), C, D, kc. split; [lia|]. split; [eapply fl_for; eauto|].
        split; [auto|]. split; [auto|]. rewrite !(app_assoc Vp), !(app_assoc Ep).
        split; [left; destruct Ii as [Ii|Ii]; rewrite ?in_app_iff; [auto|]; subst; apply in_app_or in Ic; tauto|].
        split; [intros ? Q; apply R4 in Q; places|]. split; [intros ? Q; apply R5 in Q; places|]. split; [intros ? Q; apply R6 in Q; places|].
        eapply (piece_app _ _ _ _ (fun x => S k <= x < kn \/ ki <= x < kc \/ labels_own T L x) (fun b => b = j \/ leaves T G b)); [exact Pi| |..]; [|apart|covered|places].
        eapply (piece_app _ _ _ _ (fun x => S (S k) <= x < kn \/ labels_own T L x) (fun b => b = S k \/ b = j \/ leaves T G b)); [exact Pc| |..]; [|apart|covered|places].
        eapply piece_app; [exact Pb|exact Pn|..]; [apart|covered|places].
      + destruct (draw_list pre Hp T (S (S (S k))) ib ki ltac:(lia)) as (m & Vp & Ep & kp & Bp & Xp & Ip & _ & Pp).
        exists s0, (Vi ++ S k :: Vp ++ Vb ++ Vn), (Ei ++ (S k, m) :: Ep ++ Eb ++ En), C, D, kp. split; [lia|]. split; [eapply fl_forever; eauto|].
        split; [auto|]. split; [auto|].
        split; [left; destruct Ii as [Ii|Ii]; rewrite ?in_app_iff; [auto|]; subst; cbn; auto|].
        split; [intros ? Q; apply R4 in Q; places|]. split; [intros ? Q; apply R5 in Q; places|]. split; [intros ? Q; apply R6 in Q; places|].
        eapply (piece_app _ _ _ _ (fun x => S k <= x < kn \/ ki <= x < kp \/ labels_own T L x) (fun b => b = j \/ leaves T G b)); [exact Pi| |..]; [|apart|covered|places].
        change (S k :: Vp ++ Vb ++ Vn) with ([S k] ++ Vp ++ Vb ++ Vn). change ((S k, m) :: Ep ++ Eb ++ En) with (map (pair (S k)) [m] ++ Ep ++ Eb ++ En).
        eapply (piece_app (eq (S k)) (fun b => b = m) _ _ (fun x => S (S k) <= x < kn \/ ki <= x < kp \/ labels_own T L x) (fun b => b = S k \/ b = j \/ leaves T G b));
          [apply piece_one; cbn; intuition| |apart|covered|places].
        eapply (piece_app _ _ _ _ (fun x => S (S k) <= x < kn /\ x <> S (S (S k)) \/ labels_own T L x) (fun b => b = S k \/ b = j \/ leaves T G b)); [exact Pp| |..]; [|apart|covered|places].
        eapply piece_app; [exact Pb|exact Pn|..]; [apart|covered|places].
    - (* range *)
      intros bk ct sw n init v r b d L G K Hi Hv Hr Hb IH T k j A F.
      (* k: start, k+1: the range, k+2: another?, k+3: the variable *)
      assert (F' := fine_later T k (S (S (S (S k)))) L F ltac:(lia)).
      destruct (IH (in_loop T j (S (S k))) (S (S (S (S k)))) (S (S k)) (allowed_loop _ _ _) F') as (ib & Vb & Eb & C & D & kb & Bb & Xb & R1 & R2 & R3 & R4 & R5 & R6 & Pb).
      clear F'.
      destruct (evaluable_value v Hv T (S (S (S k))) ib kb ltac:(lia)) as (Ve & Ee & ke & Be & Xe & Ie & Pe).
      destruct (evaluable_value r Hr T (S k) (S (S k)) ke ltac:(lia)) as (Vc & Ec & kc & Bc & Xc & Ic & Pc).
      destruct (draw_init init T k (S k) kc Hi ltac:(lia)) as (s0 & Vi & Ei & ki & Bi & Xi & Ii & _ & Pi).
      exists s0, (Vi ++ Vc ++ S (S k) :: Ve ++ Vb), (Ei ++ Ec ++ (S (S k), S (S (S k))) :: (S (S k), j) :: Ee ++ Eb), C, D, ki.
      split; [lia|]. split; [eapply fl_range; eauto|].
      split; [auto|]. split; [auto|]. split; [left; destruct Ii as [Ii|Ii]; rewrite ?in_app_iff; [auto|]; subst; auto|].
      split; [intros ? Q; apply R4 in Q; places|]. split; [intros ? Q; apply R5 in Q; places|]. split; [intros ? Q; apply R6 in Q; places|].
      eapply (piece_app _ _ _ _ (fun x => S k <= x < kc \/ labels_own T L x) (fun b => b = j \/ leaves T G b)); [exact Pi| |..]; [|apart|covered|places].
      eapply (piece_app _ _ _ _ (fun x => S (S k) <= x < ke \/ labels_own T L x) (fun b => b = j \/ leaves T G b)); [exact Pc| |..]; [|apart|covered|places].
      change (S (S k) :: Ve ++ Vb) with ([S (S k)] ++ Ve ++ Vb).
      change ((S (S k), S (S (S k))) :: (S (S k), j) :: Ee ++ Eb) with (map (pair (S (S k))) [S (S (S k)); j] ++ Ee ++ Eb).
      eapply (piece_app (eq (S (S k))) (fun b => b = S (S (S k)) \/ b = j) _ _ (fun x => S (S (S k)) <= x < ke \/ labels_own T L x) (fun b => b = S (S k) \/ b = j \/ leaves T G b));
        [apply piece_one; cbn; intuition| |apart|covered|places].
      eapply piece_app; [exact Pe|exact Pb|..]; [apart|covered|places].
    - (* each *)
      intros bk ct sw n e c b d L G K He Hc Hb IH T k j A F.
      (* k: start, k+1: h, k+2: next *)
      destruct (IH (in_loop T j (S k)) (S (S (S k))) (S k) (allowed_loop _ _ _) (fine_later T k (S (S (S k))) L F ltac:(lia)))
        as (ib & Vb & Eb & C & D & kb & Bb & Xb & R1 & R2 & R3 & R4 & R5 & R6 & Pb).
      destruct (evaluable_value e He T (S (S k)) ib kb ltac:(lia)) as (Ve & Ee & ke & Be & Xe & Ie & Pe).
      destruct (evaluable_value c Hc T k (S k) ke ltac:(lia)) as (Vc & Ec & kc & Bc & Xc & Ic & Pc).
      exists k, (Vc ++ S k :: Ve ++ Vb), (Ec ++ (S k, S (S k)) :: (S k, j) :: Ee ++ Eb), C, D, kc. split; [lia|]. split; [eapply fl_each; eauto|].
      split; [auto|]. split; [auto|]. split; [left; apply in_or_app; auto|].
      split; [intros ? Q; places|]. split; [intros ? Q; places|]. split; [intros ? Q; apply R6 in Q; places|].
      eapply (piece_app _ _ _ _ (fun x => S k <= x < ke \/ labels_own T L x) (fun b => b = j \/ leaves T G b)); [exact Pc| |..]; [|apart|covered|places].
      change (S k :: Ve ++ Vb) with ([S k] ++ Ve ++ Vb). change ((S k, S (S k)) :: (S k, j) :: Ee ++ Eb) with (map (pair (S k)) [S (S k); j] ++ Ee ++ Eb).
      eapply (piece_app (eq (S k)) (fun b => b = S (S k) \/ b = j) _ _ (fun x => S (S k) <= x < ke \/ labels_own T L x) (fun b => b = S k \/ b = j \/ leaves T G b));
        [apply piece_one; cbn; intuition| |apart|covered|places].
      eapply piece_app; [exact Pe|exact Pb|..]; [apart|covered|places].
    - (* switch *)
      intros bk ct sw n pre c b cov d L G K Hp Hc Hb IH N T k j A F.
      destruct (IH (in_switch T j) (S (S k)) j (allowed_switch _ _ _ _ A) (fine_later T k (S (S k)) L F ltac:(lia)))
        as (ib & Vb & Eb & C & D & kb & Bb & Xb & R1 & R2 & R3 & R4 & R5 & R6 & Pb).
      destruct (draw_scrutinee pre c T k (S k) kb Hp Hc ltac:(lia)) as (m & Vp & Ep & Vc & Ec & kc & Bc & Xp & Xc & Ic & Pc).
      assert (exists last, D = [] /\ last = j \/ D = [last]) as (last & Z).
      { destruct D as [|x [|y D]]; cbn in *; [exists j; auto|exists x; auto|lia]. }
      exists k, (Vp ++ Vc ++ S k :: Vb), (Ep ++ Ec ++ map (pair (S k)) (C ++ [last]) ++ Eb), [], [], kc. split; [lia|]. split; [eapply fl_switch; eauto|].
      split; [auto|]. split; [auto|]. rewrite !(app_assoc Vp), !(app_assoc Ep). split; [left; apply in_or_app; auto|].
      split; [intros ? []|]. split; [intros ? []|]. split; [intros ? Q; apply R6 in Q; places|].
      eapply (piece_app _ _ _ _ (fun x => S k <= x < kb \/ labels_own T L x) (fun b => b = j \/ leaves T G b)); [exact Pc| |..]; [|apart|covered|places].
      change (S k :: Vb) with ([S k] ++ Vb).
      eapply (piece_app (eq (S k)) (fun b => b = j \/ In b Vb)); [apply piece_one; auto|exact Pb|apart|covered|places].
      intros x Q. right. apply in_app_or in Q as [Q|[<-|[]]]; [right; auto|]. destruct Z as [[_ ->]|Z]; [auto|right]. apply R5. rewrite Z. now left.
    - (* case *)
      intros bk ct n v s d L G K Hv Hs IH T k j A F.
      destruct (IH T (S k) j A (fine_later T k (S k) L F ltac:(lia))) as (ib & Vb & Eb & C & D & kb & Bb & Xb & R1 & R2 & R3 & R4 & R5 & R6 & Pb).
      exists k, (k :: Vb), ((k, ib) :: Eb), (k :: C), D, kb. split; [lia|]. split; [eapply fl_case; eauto|].
      split; [auto|]. split; [discriminate|]. split; [left; now left|].
      split; [intros ? [<-|Q]; [now left|right; auto]|]. split; [intros ? Q; right; auto|]. split; [intros ? Q; right; auto|].
      change (k :: Vb) with ([k] ++ Vb). change ((k, ib) :: Eb) with (map (pair k) [ib] ++ Eb).
      eapply (piece_app (eq k) (fun b => b = ib)); [apply piece_one; cbn; intuition|exact Pb|apart|covered|places].
    - (* default *)
      intros bk ct n s d L G K Hs IH T k j A F.
      destruct (IH T (S k) j A (fine_later T k (S k) L F ltac:(lia))) as (ib & Vb & Eb & C & D & kb & Bb & Xb & R1 & R2 & R3 & R4 & R5 & R6 & Pb).
      exists k, (k :: Vb), ((k, ib) :: Eb), C, (k :: D), kb. split; [lia|]. split; [eapply fl_default; eauto|].
      split; [cbn; auto|]. split; [discriminate|]. split; [left; now left|].
      split; [intros ? Q; right; auto|]. split; [intros ? [<-|Q]; [now left|right; auto]|]. split; [intros ? Q; right; auto|].
      change (k :: Vb) with ([k] ++ Vb). change ((k, ib) :: Eb) with (map (pair k) [ib] ++ Eb).
      eapply (piece_app (eq k) (fun b => b = ib)); [apply piece_one; cbn; intuition|exact Pb|apart|covered|places].
    - (* label *)
      intros bk ct sw n l s d L G K Hs IH T k j A F. change (l :: L) with ([l] ++ L) in F |- *.
      destruct (fine_app _ _ _ _ F) as (F1 & F2 & F3).
      destruct (IH T k j A F2) as (ib & Vb & Eb & C & D & kb & Bb & Xb & R1 & R2 & R3 & R4 & R5 & R6 & Pb).
      exists (t_label T l), (t_label T l :: Vb), ((t_label T l, ib) :: Eb), C, D, kb. split; [lia|]. split; [eapply fl_label; eauto|].
      split; [auto|]. split; [auto|]. split; [left; now left|].
      split; [intros ? Q; right; auto|]. split; [intros ? Q; right; auto|]. split; [intros ? [<-|Q]; [now left|right; auto]|].
      change (t_label T l :: Vb) with ([t_label T l] ++ Vb). change ((t_label T l, ib) :: Eb) with (map (pair (t_label T l)) [ib] ++ Eb).
      assert (O : labels_own T [l] (t_label T l)) by (exists l; cbn; auto).
      eapply (piece_app (eq (t_label T l)) (fun b => b = ib)); [apply piece_one; cbn; intuition|exact Pb|apart|covered|places].
    - (* goto *)
      intros bk ct sw n l K T k j A F. exists k, [k], [(k, t_label T l)], [], [], (S k). split; [lia|]. split; [now constructor|].
      split; [auto|]. split; [auto|]. split; [cbn; auto|]. split; [intros ? []|]. split; [intros ? []|]. split; [intros ? []|].
      apply (piece_one k [t_label T l]); [left; lia|]. intros b [<-|[]]. right. right. right. right. right. exists l. cbn. auto.
    - (* break *)
      intros ct sw n K T k j A F. destruct (proj1 A eq_refl) as (x & Ex). exists k, [k], [(k, x)], [], [], (S k). split; [lia|]. split; [now apply fl_break|].
      split; [auto|]. split; [auto|]. split; [cbn; auto|]. split; [intros ? []|]. split; [intros ? []|]. split; [intros ? []|].
      apply (piece_one k [x]); [left; lia|]. intros b [<-|[]]. right. right. right. left. auto.
    - (* continue *)
      intros bk sw n K T k j A F. destruct (proj2 A eq_refl) as (x & Ex). exists k, [k], [(k, x)], [], [], (S k). split; [lia|]. split; [now apply fl_continue|].
      split; [auto|]. split; [auto|]. split; [cbn; auto|]. split; [intros ? []|]. split; [intros ? []|]. split; [intros ? []|].
      apply (piece_one k [x]); [left; lia|]. intros b [<-|[]]. right. right. right. right. left. auto.
    - (* return, throw *)
      intros bk ct sw n v K Hv T k j A F.
      assert (Y : exists i m V E k', S k <= k' /\ values simple T (opt v) i m V E /\ (In i V \/ i = m) /\ m = S k
        /\ piece (fun x => x = k \/ S (S k) <= x < k') (fun b => b = S k \/ b = t_leave T) V E).
      { destruct (draw_option v Hv T k (S k) (S (S k)) ltac:(lia)) as (s & V & E & k' & B' & X & I & _ & P). exists s, (S k), V, E, k'. split; [lia|]. auto. }
      destruct Y as (i & m & V & E & k' & B' & X & I & -> & P).
      exists i, (V ++ [S k]), (E ++ [(S k, t_leave T)]), [], [], (S k'). split; [lia|].
      split; [destruct K; [eapply fl_return; eauto|eapply fl_throw; eauto]|].
      split; [auto|]. split; [auto|]. split; [left; apply in_or_app; cbn; intuition|]. split; [intros ? []|]. split; [intros ? []|]. split; [intros ? []|].
      eapply piece_app; [exact P|apply (piece_one (S k) [t_leave T] (eq (S k)) (fun b => b = t_leave T)); cbn; intuition|apart|covered|places].
    - (* try *)
      intros bk ct sw n b hs d L G d' L' G' K Hb IHb Hh IHh T k j A F.
      destruct (fine_app _ _ _ _ F) as (F1 & F2 & F3).
      destruct (IHb T (S k) j A (fine_later T k (S k) L F1 ltac:(lia))) as (ib & Vb & Eb & C & D & kb & Bb & Xb & R1 & R2 & R3 & R4 & R5 & R6 & Pb).
      destruct (IHh T kb j A (fine_later T k kb L' F2 ltac:(lia))) as (starts & i' & Vh & Eh & C' & D' & kh & Bh & (-> & Is & Xh) & S1 & S2 & S3 & S4 & S5 & S6 & Ph).
      exists k, (k :: Vb ++ Vh), (map (pair k) (ib :: starts) ++ Eb ++ Eh), (C ++ C'), (D ++ D'), kh. split; [lia|]. split; [eapply fl_try; eauto|].
      split; [rewrite app_length; lia|]. split; [intros Z; destruct (R2 Z), (S2 Z); subst; auto|]. split; [left; now left|].
      split; [intros ? Q; right; apply in_app_or in Q; apply in_or_app; destruct Q; auto|].
      split; [intros ? Q; right; apply in_app_or in Q; apply in_or_app; destruct Q; auto|].
      split; [intros ? Q; right; apply in_app_or in Q; apply in_or_app; destruct Q; auto|].
      change (k :: Vb ++ Vh) with ([k] ++ Vb ++ Vh).
      eapply (piece_app (eq k) (fun b => b = j \/ In b (Vb ++ Vh)) _ _ (fun x => S k <= x < kh \/ labels_own T (L ++ L') x) (fun b => b = j \/ leaves T (G ++ G') b));
        [apply piece_one; auto| |apart|covered|places].
      + intros x [<-|Q]; right; [destruct R3 as [R3|R3]; [right; apply in_or_app; auto|auto]|].
        apply Is in Q as [<-|Q]; [auto|right; apply in_or_app; auto].
      + eapply piece_app; [exact Pb|exact Ph|..]; [apart|covered|places].
    - (* synchronized *)
      intros bk ct sw n e b d L G K He Hb IH T k j A F.
      destruct (IH T (S k) j A (fine_later T k (S k) L F ltac:(lia))) as (ib & Vb & Eb & C & D & kb & Bb & Xb & R1 & R2 & R3 & R4 & R5 & R6 & Pb).
      destruct (evaluable_value e He T k ib kb ltac:(lia)) as (Ve & Ee & ke & Be & Xe & Ie & Pe).
      exists k, (Ve ++ Vb), (Ee ++ Eb), C, D, ke. split; [lia|]. split; [eapply fl_synchronized; eauto|].
      split; [auto|]. split; [auto|]. split; [left; apply in_or_app; auto|].
      split; [intros ? Q; apply in_or_app; auto|]. split; [intros ? Q; apply in_or_app; auto|]. split; [intros ? Q; apply in_or_app; auto|].
      eapply piece_app; [exact Pe|exact Pb|..]; [apart|covered|places].
    - (* pool *)
      intros bk ct sw n b d L G K H IH T k j A F. destruct (IH T k j A F) as (i & V & E & C & D & k' & B & X & R).
      exists i, V, E, C, D, k'. split; auto. split; [|exact R]. eapply fl_pool; eauto.
    - (* nothing *)
      intros bk ct sw T k j A F. exists j, [], [], [], [], k. split; auto. split; [constructor|].
      split; [auto|]. split; [auto|]. split; [auto|]. split; [intros ? []|]. split; [intros ? []|]. split; [intros ? []|]. apply piece_nil.
    - (* sequence *)
      intros bk ct sw n l d L G d' L' G' Hn IHn Hl IHl T k j A F.
      destruct (fine_app _ _ _ _ F) as (F1 & F2 & F3).
      destruct (IHl T k j A F2) as (ib & Vb & Eb & C' & D' & kb & Bb & Xb & S1 & S2 & S3 & S4 & S5 & S6 & Pb).
      destruct (IHn T kb ib A (fine_later T k kb L F1 ltac:(lia))) as (ia & Va & Ea & C & D & ka & Ba & Xa & R1 & R2 & R3 & R4 & R5 & R6 & Pa).
      exists ia, (Va ++ Vb), (Ea ++ Eb), (C ++ C'), (D ++ D'), ka. split; [lia|]. split; [econstructor; eauto|].
      split; [rewrite app_length; lia|]. split; [intros Z; destruct (R2 Z), (S2 Z); subst; auto|].
      split; [rewrite in_app_iff; destruct R3 as [R3|R3]; [auto|subst; destruct S3; auto]|].
      split; [intros ? Q; rewrite !in_app_iff in *; destruct Q; auto|]. split; [intros ? Q; rewrite !in_app_iff in *; destruct Q; auto|].
      split; [intros ? Q; rewrite !in_app_iff in *; destruct Q; auto|].
      eapply piece_app; [exact Pa|exact Pb|..]; [apart|covered|places].
    - (* no handlers *)
      intros bk ct sw T k j A F. exists [], j, [], [], [], [], k. split; auto. split; [split; [auto|split; [intros ? []|constructor]]|].
      split; [auto|]. split; [auto|]. split; [auto|]. split; [intros ? []|]. split; [intros ? []|]. split; [intros ? []|]. apply piece_nil.
    - (* handlers *)
      intros bk ct sw h l p b d L G d' L' G' K Hp Hb IHb Hl IHl T k j A F.
      destruct (fine_app _ _ _ _ F) as (F1 & F2 & F3).
      destruct (IHl T k j A F2) as (starts & i' & Vl & El & C' & D' & kl & Bl & (-> & Is & Xl) & S1 & S2 & S3 & S4 & S5 & S6 & Pl).
      destruct (IHb T kl j A (fine_later T k kl L F1 ltac:(lia))) as (ib & Vb & Eb & C & D & kb & Bb & Xb & R1 & R2 & R3 & R4 & R5 & R6 & Pb).
      destruct (draw_option p Hp T kb ib (S kb) ltac:(lia)) as (s & Vp & Ep & kp & Bp & Xp & Ip & _ & Pp).
      exists (s :: starts), j, (Vp ++ Vb ++ Vl), (Ep ++ Eb ++ El), (C ++ C'), (D ++ D'), kp. split; [lia|].
      split; [split; [auto|split; [|eapply ha_next; eauto]]|].
      { intros x [<-|Q]; cbn [In]; rewrite !in_app_iff; [destruct Ip as [Ip|Ip]; [auto|subst; destruct R3; auto]|]. apply Is in Q as [Q|Q]; auto. }
      split; [rewrite app_length; lia|]. split; [intros Z; destruct (R2 Z), (S2 Z); subst; auto|]. split; [auto|].
      split; [intros ? Q; rewrite !in_app_iff in *; destruct Q; auto|]. split; [intros ? Q; rewrite !in_app_iff in *; destruct Q; auto|].
      split; [intros ? Q; rewrite !in_app_iff in *; destruct Q; auto|].
      eapply (piece_app _ _ _ _ (fun x => k <= x < kb \/ labels_own T (L ++ L') x) (fun b => b = j \/ leaves T (G ++ G') b)); [exact Pp| |..]; [|apart|covered|places].
      eapply piece_app; [exact Pb|exact Pl|..]; [apart|covered|places].
  Qed.

  (** Numbers for the labels. *)
  Fixpoint position (l : str) (L : list str) : nat :=
    match L with [] => 0 | x :: L' => if str_eqb l x then 0 else S (position l L') end.
  Lemma position_in l L : In l L -> position l L < length L /\ nth_error L (position l L) = Some l.
  Proof.
    induction L as [|x L IH]; cbn; [tauto|]. intros I. destruct (str_eqb l x) eqn:Q.
    - apply str_eqb_eq in Q. subst. split; [lia|reflexivity].
    - destruct I as [->|I]; [now rewrite (proj2 (str_eqb_eq l l) eq_refl) in Q|]. destruct (IH I). split; [lia|auto].
  Qed.
  Lemma draw_function d : drawable_function simple d -> exists V E, flow_graph simple d V E.
  Proof.
    intros (params & body & L & G & K & U & H & N & I).
    set (T := {| t_break := None; t_continue := None; t_leave := length L; t_label := fun l => position l L |}).
    destruct (proj1 draw_both _ _ _ _ _ _ _ H T (S (length L)) (length L)) as (i & V & E & C & D & k' & B & X & _ & Z & J & _ & _ & Q & P).
    { split; discriminate. }
    { split; [|split; auto].
      - intros l Hl. cbn. apply position_in in Hl. lia.
      - intros l l' Hl Hl' Q. cbn in Q. apply position_in in Hl, Hl'. destruct Hl as [_ Hl], Hl' as [_ Hl']. congruence. }
    destruct (Z eq_refl) as [-> ->]. exists (V ++ [length L]), E. exists T, params, body, i, V.
    split; [auto|]. split; [auto|]. split; [exact X|]. split; [auto|]. split; [auto|]. split; [auto|].
    destruct P as (P1 & P2 & P3). split; [|split].
    - apply nodup_join; auto; [repeat constructor; auto|]. intros x Hx [<-|[]]. apply P2 in Hx as [Hx|(l & Hl & Hx)]; [lia|].
      cbn in Hx. apply position_in in Hl. lia.
    - intros a b Hab. apply P3 in Hab as [Ha Hb]. rewrite !in_app_iff. split; auto.
      destruct Hb as [Hb|[->|[->|[Hb|[Hb|(l & Hl & ->)]]]]]; cbn in *; auto; try discriminate.
    - apply in_or_app. destruct J as [J|J]; cbn; auto.
  Qed.
End Draw.
