(** * Proofs: rule configuration, identity, registry *)
From Verif Require Import Base BaseFacts ModelResults ModelConfig SpecConfig.

Lemma smap_find_set m k v k' :
  smap_find (smap_set m k v) k' = if str_eqb k k' then Some v else smap_find m k'.
Proof.
  induction m as [|[k0 v0] m IH]; simpl.
  - reflexivity.
  - destruct (str_eqb k0 k) eqn:E; simpl.
    + apply str_eqb_eq in E as ->. now destruct (str_eqb k k').
    + rewrite IH. destruct (str_eqb k0 k') eqn:E'; auto.
      apply str_eqb_eq in E' as ->. apply str_eqb_neq in E.
      destruct (str_eqb k k') eqn:E2; auto. apply str_eqb_eq in E2. congruence.
Qed.

Definition cfg_get (c : cfg) (k : str) : option str :=
  match c with None => None | Some m => smap_find m k end.

Lemma hasKey_get c k : hasKey c k = match cfg_get c k with Some _ => true | None => false end.
Proof. destruct c; reflexivity. Qed.

Lemma stringForKey_get c k d :
  stringForKey c k d = Val (match cfg_get c k with Some v => v | None => d end, c).
Proof.
  unfold stringForKey. rewrite hasKey_get. destruct (cfg_get c k) as [v|] eqn:E; auto.
  unfold valueForKey. destruct c as [m|]; [|discriminate]. simpl in E. now rewrite E.
Qed.

Lemma intForKey_get c k d :
  intForKey c k d =
  match cfg_get c k with
  | Some v => obind (atoi v) (fun n => Val (n, c))
  | None => Val (d, c)
  end.
Proof.
  unfold intForKey. rewrite hasKey_get. destruct (cfg_get c k) as [v|] eqn:E; auto.
  unfold valueForKey. destruct c as [m|]; [|discriminate]. simpl in E. now rewrite E.
Qed.

Lemma get_add c k v k' :
  cfg_get (addConfiguration c k v) k' = if str_eqb k k' then Some v else cfg_get c k'.
Proof.
  unfold addConfiguration, cfg_get. rewrite smap_find_set. destruct c; auto.
Qed.

Lemma get_clear c k : cfg_get (removeAll c) k = None.
Proof. destruct c; reflexivity. Qed.

(** Right-to-left characterisation of the two specification predicates. *)
Lemma last_value_snoc_add ops k v k' v' :
  last_value (ops ++ [Add k v]) k' v' <->
  (k = k' /\ v = v') \/ (k <> k' /\ last_value ops k' v').
Proof.
  split.
  - intros (a & b & E & H1 & H2). destruct b as [|y b] using rev_ind.
    + apply app_inj_tail in E as [_ E]. inversion E; auto.
    + clear IHb. right. rewrite app_comm_cons, app_assoc in E.
      apply app_inj_tail in E as [E <-]. split.
      * intros ->. apply (H1 v). apply in_app_iff. simpl; auto.
      * exists a, b. split; auto. split; [intros w Hw; apply (H1 w)|intros Hw; apply H2];
          apply in_app_iff; auto.
  - intros [[-> ->]|[Hn (a & b & E & H1 & H2)]].
    + exists ops, []. auto.
    + exists a, (b ++ [Add k v]). rewrite E, <- app_assoc. split; [reflexivity|]. split.
      * intros w Hw. apply in_app_iff in Hw as [Hw|[Hw|[]]]; [eapply H1; eauto|].
        inversion Hw; auto.
      * intros Hw. apply in_app_iff in Hw as [Hw|[Hw|[]]]; auto. discriminate.
Qed.

Lemma no_value_snoc_add ops k v k' :
  no_value (ops ++ [Add k v]) k' <-> k <> k' /\ no_value ops k'.
Proof.
  split.
  - intros (a & b & E & Ha & H1 & H2). destruct b as [|y b] using rev_ind.
    + rewrite app_nil_r in E. destruct Ha as [->|[a' ->]].
      * now destruct ops.
      * apply app_inj_tail in E as [_ E]. discriminate.
    + clear IHb. rewrite app_assoc in E. apply app_inj_tail in E as [E <-]. split.
      * intros ->. apply (H1 v). apply in_app_iff. simpl; auto.
      * exists a, b. split; auto. split; auto.
        split; [intros w Hw; apply (H1 w)|intros Hw; apply H2]; apply in_app_iff; auto.
  - intros [Hn (a & b & E & Ha & H1 & H2)].
    exists a, (b ++ [Add k v]). rewrite E, <- app_assoc. split; [reflexivity|]. split; auto. split.
    + intros w Hw. apply in_app_iff in Hw as [Hw|[Hw|[]]]; [eapply H1; eauto|].
      inversion Hw; auto.
    + intros Hw. apply in_app_iff in Hw as [Hw|[Hw|[]]]; auto. discriminate.
Qed.

Lemma last_value_snoc_clear ops k v : ~ last_value (ops ++ [Clear]) k v.
Proof.
  intros (a & b & E & H1 & H2). destruct b as [|y b] using rev_ind.
  - apply app_inj_tail in E as [_ E]. discriminate.
  - rewrite app_comm_cons, app_assoc in E. apply app_inj_tail in E as [E <-].
    apply H2. apply in_app_iff. simpl; auto.
Qed.

Lemma no_value_snoc_clear ops k : no_value (ops ++ [Clear]) k.
Proof.
  exists (ops ++ [Clear]), []. rewrite app_nil_r. split; auto. split; eauto.
Qed.

Lemma last_value_snoc_other ops o k v :
  (forall k' v', o <> Add k' v') -> o <> Clear ->
  last_value (ops ++ [o]) k v <-> last_value ops k v.
Proof.
  intros Ha Hc. split.
  - intros (a & b & E & H1 & H2). destruct b as [|y b] using rev_ind.
    + apply app_inj_tail in E as [_ ->]. exfalso. eapply Ha; eauto.
    + clear IHb. rewrite app_comm_cons, app_assoc in E. apply app_inj_tail in E as [E <-].
      exists a, b. split; auto.
      split; [intros w Hw; apply (H1 w)|intros Hw; apply H2]; apply in_app_iff; auto.
  - intros (a & b & E & H1 & H2). exists a, (b ++ [o]). rewrite E, <- app_assoc.
    split; [reflexivity|]. split.
    + intros w Hw. apply in_app_iff in Hw as [Hw|[Hw|[]]]; [eapply H1; eauto|]. eapply Ha; eauto.
    + intros Hw. apply in_app_iff in Hw as [Hw|[Hw|[]]]; auto.
Qed.

Lemma no_value_snoc_other ops o k :
  (forall k' v', o <> Add k' v') -> o <> Clear ->
  no_value (ops ++ [o]) k <-> no_value ops k.
Proof.
  intros Ha Hc. split.
  - intros (a & b & E & Hs & H1 & H2). destruct b as [|y b] using rev_ind.
    + rewrite app_nil_r in E. destruct Hs as [->|[a' ->]].
      * now destruct ops.
      * apply app_inj_tail in E as [_ E]. congruence.
    + clear IHb. rewrite app_assoc in E. apply app_inj_tail in E as [E <-].
      exists a, b. split; auto. split; auto.
      split; [intros w Hw; apply (H1 w)|intros Hw; apply H2]; apply in_app_iff; auto.
  - intros (a & b & E & Hs & H1 & H2). exists a, (b ++ [o]). rewrite E, <- app_assoc.
    split; [reflexivity|]. split; auto. split.
    + intros w Hw. apply in_app_iff in Hw as [Hw|[Hw|[]]]; [eapply H1; eauto|]. eapply Ha; eauto.
    + intros Hw. apply in_app_iff in Hw as [Hw|[Hw|[]]]; auto.
Qed.

Lemma run_cfg_app a b c :
  run_cfg (a ++ b) c = obind (run_cfg a c) (run_cfg b).
Proof.
  revert c; induction a as [|o a IH]; intros c; [reflexivity|].
  destruct o; cbn [run_cfg app].
  - apply IH.
  - apply IH.
  - destruct (stringForKey c key default); simpl; auto.
  - destruct (intForKey c key default); simpl; auto.
Qed.

Lemma run_cfg_get ops c :
  run_cfg ops cfg_fresh = Val c ->
  forall k, (forall v, cfg_get c k = Some v <-> last_value ops k v)
            /\ (cfg_get c k = None <-> no_value ops k).
Proof.
  revert c. induction ops as [|o ops IH] using rev_ind; intros c H k.
  - simpl in H. inversion H; subst. simpl. split.
    + intros v; split; [discriminate|]. intros (a & b & E & _). now destruct a.
    + split; auto. intros _. exists [], []. repeat split; auto.
  - rewrite run_cfg_app in H. destruct (run_cfg ops cfg_fresh) as [c0| |]; try discriminate.
    specialize (IH c0 eq_refl). simpl in H.
    destruct o as [k0 v0| |k0 d|k0 d].
    + inversion H; subst. rewrite get_add. destruct (IH k) as [I1 I2].
      destruct (str_eqb k0 k) eqn:E.
      * apply str_eqb_eq in E as ->. split.
        -- intros v. rewrite last_value_snoc_add. split; [intros [= ->]; auto|].
           intros [[_ ->]|[Hn _]]; congruence.
        -- rewrite no_value_snoc_add. split; [discriminate | intros [Hn _]; congruence].
      * apply str_eqb_neq in E. split.
        -- intros v. rewrite last_value_snoc_add, I1. tauto.
        -- rewrite no_value_snoc_add, I2. tauto.
    + inversion H; subst. rewrite get_clear. split.
      * intros v. split; [discriminate|]. intros Hl. now apply last_value_snoc_clear in Hl.
      * split; auto. intros _. apply no_value_snoc_clear.
    + rewrite stringForKey_get in H. simpl in H. inversion H; subst.
      destruct (IH k) as [I1 I2]. split.
      * intros v. rewrite last_value_snoc_other; [apply I1| |]; discriminate.
      * rewrite no_value_snoc_other; [apply I2| |]; discriminate.
    + rewrite intForKey_get in H.
      assert (c0 = c) as ->.
      { destruct (cfg_get c0 k0) as [v|].
        - destruct (atoi v); simpl in H; congruence.
        - simpl in H; congruence. }
      destruct (IH k) as [I1 I2]. split.
      * intros v. rewrite last_value_snoc_other; [apply I1| |]; discriminate.
      * rewrite no_value_snoc_other; [apply I2| |]; discriminate.
Qed.

Lemma run_cfg_safe ops :
  (forall k d, ~ In (LookupInt k d) ops) -> exists c, run_cfg ops cfg_fresh = Val c.
Proof.
  induction ops as [|o ops IH] using rev_ind; intros H; [now exists cfg_fresh|].
  destruct IH as [c Hc]. { intros k d Hin. apply (H k d). apply in_app_iff; auto. }
  rewrite run_cfg_app, Hc. destruct o; cbn [obind run_cfg]; eauto.
  - rewrite stringForKey_get. simpl; eauto.
  - exfalso. eapply H. apply in_app_iff. right. simpl. eauto.
Qed.

(** Every key has a last value or none. *)
Lemma value_or_none ops k : (exists v, last_value ops k v) \/ no_value ops k.
Proof.
  induction ops as [|o ops IH] using rev_ind.
  - right. exists [], []. repeat split; auto.
  - destruct o as [k0 v0| |k0 d|k0 d].
    + destruct (str_eq_dec k0 k) as [->|Hn].
      * left. exists v0. apply last_value_snoc_add. auto.
      * destruct IH as [[v Hv]|Hv].
        -- left. exists v. apply last_value_snoc_add. auto.
        -- right. apply no_value_snoc_add. auto.
    + right. apply no_value_snoc_clear.
    + destruct IH as [[v Hv]|Hv].
      * left. exists v. apply last_value_snoc_other; try discriminate; auto.
      * right. apply no_value_snoc_other; try discriminate; auto.
    + destruct IH as [[v Hv]|Hv].
      * left. exists v. apply last_value_snoc_other; try discriminate; auto.
      * right. apply no_value_snoc_other; try discriminate; auto.
Qed.

(** ** atoi *)

Lemma isspace_not_nul c : isspace c = true -> code c =? 0 = false.
Proof.
  unfold isspace. rewrite orb_true_iff, andb_true_iff, !Nat.leb_le, Nat.eqb_eq.
  intros. apply Nat.eqb_neq. lia.
Qed.

Lemma isdigit_bounds c : isdigit c = true -> 48 <= code c <= 57.
Proof. unfold isdigit. rewrite andb_true_iff, !Nat.leb_le. lia. Qed.

Lemma isdigit_not_nul c : isdigit c = true -> code c =? 0 = false.
Proof. intros H%isdigit_bounds. apply Nat.eqb_neq. lia. Qed.

Lemma isdigit_not_space c : isdigit c = true -> isspace c = false.
Proof.
  intros H%isdigit_bounds. unfold isspace.
  apply orb_false_iff. split; [apply Nat.eqb_neq; lia|].
  apply andb_false_iff. right. apply Nat.leb_gt. lia.
Qed.

Lemma c_str_app_nonnul a b :
  Forall (fun c => code c =? 0 = false) a -> c_str (a ++ b) = a ++ c_str b.
Proof. induction 1 as [|c a Hc Ha IH]; simpl; [reflexivity|]. now rewrite Hc, IH. Qed.

Lemma skip_spaces_app ws s :
  Forall (fun c => isspace c = true) ws -> skip_spaces (ws ++ s) = skip_spaces s.
Proof. induction 1 as [|c ws Hc H IH]; simpl; [reflexivity|]. now rewrite Hc. Qed.

Lemma read_digits_app ds rest acc :
  Forall (fun c => isdigit c = true) ds ->
  (forall c r, rest = c :: r -> isdigit c = false) ->
  read_digits (ds ++ rest) acc = (acc * 10 ^ Z.of_nat (length ds) + value_of_digits ds)%Z.
Proof.
  intros H Hr. revert acc. induction H as [|d ds Hd H IH]; intros acc.
  - cbn [app length value_of_digits]. destruct rest as [|c r].
    + simpl. lia.
    + cbn [read_digits]. rewrite (Hr c r eq_refl). simpl. lia.
  - cbn [app read_digits length value_of_digits]. rewrite Hd, IH. unfold digit_val.
    rewrite Nat2Z.inj_succ, Z.pow_succ_r by lia. ring.
Qed.

Lemma c_str_head_digit rest :
  (forall c r, rest = c :: r -> isdigit c = false) ->
  forall c r, c_str rest = c :: r -> isdigit c = false.
Proof.
  intros H c r E. destruct rest as [|x rest]; simpl in E; [discriminate|].
  destruct (code x =? 0); [discriminate|]. inversion E; subst. eauto.
Qed.

Lemma Forall_impl2 {A} (P Q : A -> Prop) l : (forall x, P x -> Q x) -> Forall P l -> Forall Q l.
Proof. intros H F. eapply Forall_impl; eauto. Qed.

Lemma atoi_value s z : reads_as s z -> atoi s = if in_intb z then Val z else UB.
Proof.
  intros (ws & sign & ds & rest & -> & Hws & Hne & Hds & Hrest & Hz).
  unfold atoi.
  rewrite c_str_app_nonnul by (eapply Forall_impl2; [apply isspace_not_nul | exact Hws]).
  rewrite skip_spaces_app by auto.
  assert (Hcs : c_str (ds ++ rest) = ds ++ c_str rest /\
                read_digits (ds ++ c_str rest) 0 = value_of_digits ds).
  { split.
    - apply c_str_app_nonnul. eapply Forall_impl2; [apply isdigit_not_nul | exact Hds].
    - rewrite read_digits_app by (auto; now apply c_str_head_digit). lia. }
  destruct Hcs as [E1 E2].
  destruct Hz as [[-> ->]|[[-> ->]| [-> ->]]].
  - cbn [app]. rewrite E1.
    destruct ds as [|d ds]; [congruence|]. inversion Hds; subst.
    cbn [app skip_spaces]. rewrite (isdigit_not_space d) by auto.
    assert (Hm : d <> "-"%char /\ d <> "+"%char).
    { split; intros ->; discriminate. }
    cbn [app] in E2.
    assert (E3 : (match d :: ds ++ c_str rest with
           | "-"%char :: t' => (- read_digits t' 0)%Z
           | "+"%char :: t' => read_digits t' 0
           | _ => read_digits (d :: ds ++ c_str rest) 0 end) = read_digits (d :: ds ++ c_str rest) 0).
    { destruct d as [[] [] [] [] [] [] [] []]; try reflexivity; exfalso; destruct Hm as [Hm1 Hm2];
        (now apply Hm1) || (now apply Hm2). }
    rewrite E3, E2. reflexivity.
  - assert (T : skip_spaces (c_str ($"+" ++ ds ++ rest)) = "+"%char :: (ds ++ c_str rest))
      by (rewrite <- E1; reflexivity).
    rewrite T. cbv beta iota zeta. rewrite E2. reflexivity.
  - assert (T : skip_spaces (c_str ($"-" ++ ds ++ rest)) = "-"%char :: (ds ++ c_str rest))
      by (rewrite <- E1; reflexivity).
    rewrite T. cbv beta iota zeta. rewrite E2. reflexivity.
Qed.

Lemma in_intb_iff z : in_intb z = true <-> in_int z.
Proof. unfold in_intb, in_int. rewrite andb_true_iff, !Z.leb_le. tauto. Qed.
Lemma atoi_reads s z : reads_as s z -> in_int z -> atoi s = Val z.
Proof. intros H I. rewrite (atoi_value s z H). apply in_intb_iff in I. now rewrite I. Qed.
Lemma atoi_overflows s z : reads_as s z -> ~ in_int z -> atoi s = UB.
Proof. intros H I. rewrite (atoi_value s z H). destruct (in_intb z) eqn:E; auto. apply in_intb_iff in E. tauto. Qed.

Lemma skip_spaces_split t :
  exists ws, t = ws ++ skip_spaces t /\ Forall (fun c => isspace c = true) ws.
Proof.
  induction t as [|c t IH]; simpl.
  - now exists [].
  - destruct (isspace c) eqn:E.
    + destruct IH as (ws & Ht & Hws). exists (c :: ws). split; [simpl; now rewrite <- Ht|].
      now constructor.
    + now exists [].
Qed.

Lemma c_str_split s : exists r, s = c_str s ++ r.
Proof.
  induction s as [|c s IH]; simpl; [now exists []|].
  destruct (code c =? 0); [now exists (c :: s)|].
  destruct IH as [r Hr]. exists r. simpl. now rewrite <- Hr.
Qed.

Fixpoint digits_prefix (s : str) : str :=
  match s with
  | c :: s' => if isdigit c then c :: digits_prefix s' else []
  | [] => []
  end.
Lemma digits_prefix_split s :
  exists rest, s = digits_prefix s ++ rest
    /\ Forall (fun c => isdigit c = true) (digits_prefix s)
    /\ (forall c r, rest = c :: r -> isdigit c = false).
Proof.
  induction s as [|c s IH]; simpl.
  - exists []. repeat split; auto. discriminate.
  - destruct (isdigit c) eqn:E.
    + destruct IH as (r & Hr & Hf & Hd). exists r. split; [simpl; now rewrite <- Hr|].
      split; auto.
    + exists (c :: s). repeat split; auto. intros c' r [= <- <-]. auto.
Qed.

Lemma read_digits_none s : digits_prefix s = [] -> read_digits s 0 = 0%Z.
Proof. destruct s as [|c s]; simpl; auto. destruct (isdigit c); auto; discriminate. Qed.

Lemma c_str_no_digit_next s r c :
  s = c_str s ++ c :: r -> isdigit c = false.
Proof.
  induction s as [|x s IH]; simpl; [discriminate|].
  destruct (code x =? 0) eqn:E; simpl.
  - intros [= -> _]. destruct (isdigit c) eqn:D; auto. apply isdigit_not_nul in D. congruence.
  - intros [= H]. auto.
Qed.

Lemma reads_intro s ws sign t :
  c_str s = ws ++ sign ++ t ->
  Forall (fun c => isspace c = true) ws ->
  digits_prefix t <> [] ->
  sign = [] \/ sign = $"+" \/ sign = $"-" ->
  exists z, reads_as s z.
Proof.
  intros E Hws Hne Hs.
  destruct (digits_prefix_split t) as (rest & Ht & Hf & Hd).
  destruct (c_str_split s) as [r Hr].
  assert (Hend : forall c q, rest ++ r = c :: q -> isdigit c = false).
  { intros c q Hq. destruct rest as [|x rest]; simpl in Hq.
    - destruct r as [|y r]; [discriminate|]. inversion Hq; subst.
      eapply c_str_no_digit_next; eauto.
    - inversion Hq; subst. eapply Hd; eauto. }
  assert (Hs2 : s = ws ++ sign ++ digits_prefix t ++ (rest ++ r)).
  { rewrite Hr at 1. rewrite E. rewrite Ht at 1. now rewrite <- !app_assoc. }
  destruct Hs as [->| [->| ->]].
  - exists (value_of_digits (digits_prefix t)), ws, [], (digits_prefix t), (rest ++ r).
    repeat split; auto.
  - exists (value_of_digits (digits_prefix t)), ws, ($"+"), (digits_prefix t), (rest ++ r).
    repeat split; auto.
  - exists (- value_of_digits (digits_prefix t))%Z, ws, ($"-"), (digits_prefix t), (rest ++ r).
    repeat split; auto.
Qed.

Lemma atoi_no_number s : (forall z, ~ reads_as s z) -> atoi s = Val 0%Z.
Proof.
  intros H. unfold atoi.
  destruct (skip_spaces_split (c_str s)) as (ws & E & Hws).
  set (t := skip_spaces (c_str s)) in *.
  assert (K : forall sign t', t = sign ++ t' -> sign = [] \/ sign = $"+" \/ sign = $"-" ->
              digits_prefix t' = []).
  { intros sign t' Et Hs. destruct (digits_prefix t') eqn:D; auto. exfalso.
    destruct (reads_intro s ws sign t') as [z Hz]; auto.
    - now rewrite <- Et.
    - congruence.
    - now apply (H z). }
  assert (E0 : (match t with
           | "-"%char :: t' => (- read_digits t' 0)%Z
           | "+"%char :: t' => read_digits t' 0
           | _ => read_digits t 0 end) = 0%Z).
  { assert (R0 : read_digits t 0 = 0%Z) by (apply read_digits_none; apply (K []); auto).
    destruct t as [|c t']; auto.
    destruct (ascii_dec c "-"%char) as [->|Hm].
    { rewrite read_digits_none; auto. apply (K ($"-")); auto. }
    destruct (ascii_dec c "+"%char) as [->|Hp].
    { rewrite read_digits_none; auto. apply (K ($"+")); auto. }
    destruct c as [[] [] [] [] [] [] [] []]; auto; exfalso; (now apply Hm) || (now apply Hp). }
  rewrite E0. reflexivity.
Qed.

(** Whether a text starts with a number is decidable. *)
Lemma reads_dec s : (exists z, reads_as s z) \/ (forall z, ~ reads_as s z).
Proof.
  destruct (skip_spaces_split (c_str s)) as (ws & E & Hws).
  set (t := skip_spaces (c_str s)) in *.
  set (signed := match t with "-"%char :: t' => ($"-", t') | "+"%char :: t' => ($"+", t') | _ => ([], t) end).
  assert (Es : t = fst signed ++ snd signed /\ (fst signed = [] \/ fst signed = $"+" \/ fst signed = $"-")).
  { unfold signed. destruct t as [|c t']; [auto|]. destruct (ascii_dec c "-"%char) as [->|Hm]; [cbn; auto|].
    destruct (ascii_dec c "+"%char) as [->|Hp]; [cbn; auto|].
    destruct c as [[] [] [] [] [] [] [] []]; cbn; auto. }
  destruct (digits_prefix (snd signed)) as [|d ds] eqn:D.
  - right. intros z (w1 & g1 & d1 & r1 & E1 & W1 & N1 & D1 & R1 & Z1).
    assert (Ec : c_str (g1 ++ d1 ++ r1) = g1 ++ d1 ++ c_str r1).
    { assert (X : c_str (d1 ++ r1) = d1 ++ c_str r1) by (apply c_str_app_nonnul; eapply Forall_impl2; [apply isdigit_not_nul|exact D1]).
      destruct Z1 as [[-> _]|[[-> _]| [-> _]]]; cbn [app]; rewrite <- X; reflexivity. }
    assert (T : t = g1 ++ d1 ++ c_str r1).
    { unfold t. rewrite E1. rewrite c_str_app_nonnul by (eapply Forall_impl2; [apply isspace_not_nul|exact W1]).
      rewrite skip_spaces_app by auto. rewrite Ec. destruct Z1 as [[-> _]|[[-> _]| [-> _]]]; try reflexivity.
      destruct d1 as [|x d1]; [congruence|]. inversion D1; subst. cbn. now rewrite (isdigit_not_space x). }
    destruct d1 as [|x d1]; [congruence|]. inversion D1 as [|? ? Dx _]; subst.
    assert (S : snd signed = (x :: d1) ++ c_str r1).
    { unfold signed. rewrite T. destruct Z1 as [[-> _]|[[-> _]| [-> _]]]; try reflexivity.
      destruct x as [[] [] [] [] [] [] [] []]; cbn; try reflexivity; discriminate. }
    rewrite S in D. cbn in D. rewrite Dx in D. discriminate.
  - left. destruct Es as [Et Hg]. apply (reads_intro s ws (fst signed) (snd signed)); auto; [now rewrite <- Et|congruence].
Qed.

(** The number read is unique. *)
Lemma reads_as_unique s z1 z2 : reads_as s z1 -> reads_as s z2 -> z1 = z2.
Proof.
  intros (w1 & g1 & d1 & r1 & E1 & W1 & N1 & D1 & R1 & Z1)
         (w2 & g2 & d2 & r2 & E2 & W2 & N2 & D2 & R2 & Z2).
  assert (G : forall g d r, (g = [] \/ g = $"+" \/ g = $"-") -> d <> [] ->
              Forall (fun c => isdigit c = true) d -> skip_spaces (g ++ d ++ r) = g ++ d ++ r).
  { intros g d r Hg Hd Fd. destruct Hg as [->| [->| ->]]; try reflexivity.
    destruct d as [|x d]; [congruence|]. inversion Fd; subst. simpl.
    now rewrite (isdigit_not_space x). }
  assert (K1 : skip_spaces s = g1 ++ d1 ++ r1).
  { rewrite E1, skip_spaces_app by auto. apply G; auto. tauto. }
  assert (K2 : skip_spaces s = g2 ++ d2 ++ r2).
  { rewrite E2, skip_spaces_app by auto. apply G; auto. tauto. }
  rewrite K1 in K2. clear K1 E1 E2 W1 W2 G.
  assert (P : forall d r, Forall (fun c => isdigit c = true) d ->
              (forall c q, r = c :: q -> isdigit c = false) -> digits_prefix (d ++ r) = d).
  { intros d r F Hr. induction F; simpl.
    - destruct r; auto. simpl. now rewrite (Hr a r).
    - rewrite H. now f_equal. }
  assert (Q : forall d r, d <> [] -> Forall (fun c => isdigit c = true) d ->
              exists x t, d ++ r = x :: t /\ isdigit x = true).
  { intros [|x d] r Hn F; [congruence|]. inversion F; subst. simpl. eauto. }
  destruct (Q d1 r1 N1 D1) as (x1 & t1 & Ex1 & Hx1).
  destruct (Q d2 r2 N2 D2) as (x2 & t2 & Ex2 & Hx2).
  assert (S : g1 = g2 /\ d1 ++ r1 = d2 ++ r2).
  { assert (A1 : g1 = [] \/ g1 = $"+" \/ g1 = $"-") by tauto.
    assert (A2 : g2 = [] \/ g2 = $"+" \/ g2 = $"-") by tauto.
    destruct A1 as [->| [->| ->]], A2 as [->| [->| ->]]; cbn in K2; auto;
      try (rewrite Ex1 in K2); try (rewrite Ex2 in K2); inversion K2; subst; try discriminate;
      split; auto; congruence. }
  destruct S as [-> S].
  assert (d1 = d2) as -> by (rewrite <- (P d1 r1 D1 R1), <- (P d2 r2 D2 R2); now f_equal).
  destruct Z1 as [[-> ->]|[[-> ->]| [-> ->]]], Z2 as [[H ->]|[[H ->]|[H ->]]];
    try discriminate; auto.
Qed.

(** Decimal printing reads back. *)
Lemma code_digit n : (0 <= n < 10)%Z -> Z.of_nat (code (digit n)) = (48 + n)%Z.
Proof.
  intros H. unfold digit, code. rewrite nat_ascii_embedding by lia. lia.
Qed.
Lemma isdigit_digit n : (0 <= n < 10)%Z -> isdigit (digit n) = true.
Proof.
  intros H. unfold isdigit. pose proof (code_digit n H).
  rewrite andb_true_iff, !Nat.leb_le. lia.
Qed.

Lemma pos_digits_spec fuel n acc :
  (0 <= n < 2 ^ Z.of_nat fuel)%Z -> fuel <> 0 ->
  Forall (fun c => isdigit c = true) acc ->
  let r := pos_digits fuel n acc in
  Forall (fun c => isdigit c = true) r /\ length acc < length r /\
  value_of_digits r = (n * 10 ^ Z.of_nat (length acc) + value_of_digits acc)%Z.
Proof.
  revert n acc; induction fuel as [|f IH]; intros n acc Hn Hf Hacc; [congruence|].
  cbn [pos_digits]. destruct (n <? 10)%Z eqn:E.
  - apply Z.ltb_lt in E. cbn zeta. repeat split.
    + constructor; auto. apply isdigit_digit; lia.
    + simpl; lia.
    + cbn [value_of_digits]. rewrite code_digit by lia. f_equal. ring.
  - apply Z.ltb_ge in E.
    assert (Hf0 : f <> 0).
    { intros ->. simpl in Hn. lia. }
    assert (Hd : (0 <= n / 10 < 2 ^ Z.of_nat f)%Z).
    { split; [apply Z.div_pos; lia|]. apply Z.div_lt_upper_bound; [lia|].
      rewrite Nat2Z.inj_succ, Z.pow_succ_r in Hn by lia. nia. }
    assert (Hm : (0 <= n mod 10 < 10)%Z) by (apply Z.mod_pos_bound; lia).
    destruct (IH (n / 10)%Z (digit (n mod 10) :: acc) Hd Hf0) as (I1 & I2 & I3).
    { constructor; auto. now apply isdigit_digit. }
    cbn zeta in *. repeat split; auto.
    + simpl in I2. lia.
    + rewrite I3. cbn [value_of_digits length]. rewrite code_digit by auto.
      rewrite Nat2Z.inj_succ, Z.pow_succ_r by lia.
      pose proof (Z.div_mod n 10 ltac:(lia)). nia.
Qed.

Lemma show_nonneg_spec n :
  (0 <= n)%Z ->
  show_nonneg n <> [] /\ Forall (fun c => isdigit c = true) (show_nonneg n)
  /\ value_of_digits (show_nonneg n) = n.
Proof.
  intros H. unfold show_nonneg.
  destruct (pos_digits_spec (S (Z.to_nat (Z.log2 (n + 1)))) n []) as (A & B & C); auto.
  - rewrite Nat2Z.inj_succ, Z2Nat.id by apply Z.log2_nonneg.
    destruct (Z.log2_spec (n + 1)); lia.
  - cbn zeta in *. repeat split; auto.
    + intros E. rewrite E in B. simpl in B. lia.
    + rewrite C. simpl. lia.
Qed.

Lemma show_Z_reads n rest :
  (forall c r, rest = c :: r -> isdigit c = false) -> reads_as (show_Z n ++ rest) n.
Proof.
  intros Hr. unfold show_Z. destruct (n <? 0)%Z eqn:E.
  - apply Z.ltb_lt in E. destruct (show_nonneg_spec (- n)) as (A & B & C); [lia|].
    exists [], ($"-"), (show_nonneg (- n)), rest. repeat split; auto.
    right. right. split; auto. lia.
  - apply Z.ltb_ge in E. destruct (show_nonneg_spec n) as (A & B & C); [lia|].
    exists [], [], (show_nonneg n), rest. repeat split; auto.
Qed.

(** ** Identifier *)

Lemma code_inj a b : code a = code b -> a = b.
Proof.
  unfold code. intros H. rewrite <- (ascii_nat_embedding a), <- (ascii_nat_embedding b).
  now rewrite H.
Qed.

Lemma toupper_isalpha c : isalpha (toupper c) = isalpha c.
Proof. destruct c as [[] [] [] [] [] [] [] []]; reflexivity. Qed.
Lemma toupper_toupper c : toupper (toupper c) = toupper c.
Proof. destruct c as [[] [] [] [] [] [] [] []]; reflexivity. Qed.
Lemma toupper_upper c : isalpha c = true -> isupper (toupper c) = true.
Proof. destruct c as [[] [] [] [] [] [] [] []]; reflexivity || discriminate. Qed.
Lemma toupper_not_lower c : islower c = false -> toupper c = c.
Proof. unfold toupper. now intros ->. Qed.
Lemma islower_alpha c : islower c = true -> isalpha c = true.
Proof. unfold isalpha. intros ->. apply orb_true_r. Qed.
Lemma isupper_toupper c : isupper c = true -> toupper c = c.
Proof. destruct c as [[] [] [] [] [] [] [] []]; reflexivity || discriminate. Qed.

Lemma capitalize_spells name pre prev prev0 s :
  name = pre ++ prev0 :: s -> isalpha prev = isalpha prev0 ->
  spells name (S (length pre)) s (filter isalpha (capitalize_loop prev s)).
Proof.
  revert pre prev prev0; induction s as [|c s IH]; intros pre prev prev0 Hn Hp.
  - constructor.
  - cbn [capitalize_loop].
    set (c' := if negb (isalpha prev) && islower c then toupper c else c).
    assert (Hc' : isalpha c' = isalpha c).
    { unfold c'. destruct (negb (isalpha prev) && islower c); auto. apply toupper_isalpha. }
    assert (IHn : spells name (S (S (length pre))) s (filter isalpha (capitalize_loop c' s))).
    { replace (S (length pre)) with (length (pre ++ [prev0])) by (rewrite app_length; simpl; lia).
      apply (IH (pre ++ [prev0]) c' c); auto. rewrite <- app_assoc. exact Hn. }
    assert (Hnth : nth_error name (length pre) = Some prev0).
    { rewrite Hn, nth_error_app2, Nat.sub_diag by lia. reflexivity. }
    cbn [filter]. rewrite Hc'. destruct (isalpha c) eqn:Ec.
    + destruct (isalpha prev) eqn:Epr.
      * unfold c'. cbn [negb andb]. apply sp_keep; auto.
        intros [H|(j & x & Hj & Hx & Hxa)]; [discriminate|].
        inversion Hj; subst j. rewrite Hnth in Hx. inversion Hx; subst. congruence.
      * assert (c' = toupper c) as ->.
        { unfold c'. cbn [negb andb]. destruct (islower c) eqn:El; auto.
          symmetry. now apply toupper_not_lower. }
        apply sp_cap; auto. right. exists (length pre), prev0. repeat split; auto.
    + now apply sp_skip.
Qed.

Lemma identifier_spells name : spells name 0 name (identifier name).
Proof.
  destruct name as [|c s]; simpl; [constructor|].
  assert (H : spells (c :: s) 1 s (filter isalpha (capitalize_loop (toupper c) s))).
  { apply (capitalize_spells (c :: s) [] (toupper c) c s); auto. apply toupper_isalpha. }
  rewrite toupper_isalpha. destruct (isalpha c) eqn:E.
  - apply sp_cap; auto. now left.
  - now apply sp_skip.
Qed.

Lemma spells_det name i rest o1 o2 : spells name i rest o1 -> spells name i rest o2 -> o1 = o2.
Proof.
  intros H. revert o2. induction H; intros o2 H2; inversion H2; subst; try congruence; auto;
    f_equal; auto; contradiction.
Qed.

Lemma spells_letters name i rest out :
  spells name i rest out -> map toupper out = map toupper (filter isalpha rest).
Proof.
  induction 1; simpl; auto.
  - now rewrite H.
  - rewrite H. simpl. now rewrite toupper_toupper, IHspells.
  - rewrite H. simpl. now rewrite IHspells.
Qed.

Lemma spells_all_letters name i rest out :
  spells name i rest out -> Forall (fun c => isalpha c = true) out.
Proof.
  induction 1; auto; constructor; auto. now rewrite toupper_isalpha.
Qed.

Lemma skipn_cons_inv {A} (c : A) rest i l :
  c :: rest = skipn i l -> nth_error l i = Some c /\ rest = skipn (S i) l.
Proof.
  revert i; induction l as [|x l IH]; intros [|i] H; simpl in *; try discriminate.
  - now inversion H.
  - now apply IH.
Qed.

Lemma spells_head_upper name i rest out c o :
  word_start name i -> rest = skipn i name ->
  spells name i rest out -> out = c :: o -> isupper c = true.
Proof.
  intros Hw Hr H. revert Hw Hr c o. induction H; intros Hw Hr c' o' E; try discriminate.
  - apply skipn_cons_inv in Hr as [Hnth Hr]. eapply IHspells; eauto.
    right. exists i, c. auto.
  - inversion E; subst. now apply toupper_upper.
  - contradiction.
Qed.

Lemma capitalize_id prev s :
  isalpha prev = true -> Forall (fun c => isalpha c = true) s -> capitalize_loop prev s = s.
Proof.
  intros Hp H. revert prev Hp. induction H as [|c s Hc H IH]; intros prev Hp; simpl; auto.
  rewrite Hp. simpl. f_equal. auto.
Qed.

Lemma filter_id {A} (f : A -> bool) l : Forall (fun x => f x = true) l -> filter f l = l.
Proof. induction 1 as [|x l H F IH]; simpl; auto. now rewrite H, IH. Qed.

Lemma identifier_idempotent name : identifier (identifier name) = identifier name.
Proof.
  pose proof (spells_all_letters _ _ _ _ (identifier_spells name)) as HF.
  assert (HU : forall c o, identifier name = c :: o -> isupper c = true).
  { intros c o. apply (spells_head_upper name 0 name); auto.
    - now left.
    - apply identifier_spells. }
  destruct (identifier name) as [|c s]; [reflexivity|].
  inversion HF; subst. cbn [identifier].
  rewrite (isupper_toupper c) by eauto.
  rewrite capitalize_id by auto. now apply filter_id.
Qed.

(** ** Rule registry *)

Lemma register_all rules s :
  fold_left rs_register rules s
  = match rules with
    | [] => s
    | _ => Some ((match s with None => [] | Some l => l end) ++ rules)
    end.
Proof.
  revert s; induction rules as [|r rules IH]; intros s; [reflexivity|].
  cbn [fold_left]. rewrite IH. destruct rules as [|r' rules]; [reflexivity|].
  unfold rs_register. now rewrite <- app_assoc.
Qed.
