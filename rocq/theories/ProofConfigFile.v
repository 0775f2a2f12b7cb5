(** * Lemmas about the keys of a configuration file *)
From Verif Require Import Base BaseFacts ModelResults ModelConfig ModelFilter ModelOptions ModelConfigFile
  SpecConfig SpecFilter SpecOptions SpecConfigFile ProofConfig ProofFilter ProofOptions.
From Coq Require Import Permutation.

Lemma distinctb_NoDup l : distinctb l = true <-> NoDup l.
Proof.
  induction l as [|x l IH]; simpl; [split; [constructor|reflexivity]|].
  rewrite andb_true_iff, negb_true_iff, IH. split.
  - intros [H N]. constructor; auto. intros I. rewrite <- not_true_iff_false in H. apply H.
    apply existsb_exists. exists x. split; auto. now apply str_eqb_eq.
  - intros N. inversion N; subst. split; auto. apply not_true_iff_false. intros E.
    apply existsb_exists in E as (y & I & E). apply str_eqb_eq in E as ->. auto.
Qed.

Section YInd.
  Variable P : ynode -> Prop.
  Hypothesis HE : P YEmpty.
  Hypothesis HS : forall t, P (YScalar t).
  Hypothesis HQ : forall l, Forall P l -> P (YSeq l).
  Hypothesis HM : forall d, Forall (fun kv => P (snd kv)) d -> P (YMap d).
  Fixpoint ynode_ind' (n : ynode) : P n :=
    match n with
    | YEmpty => HE
    | YScalar t => HS t
    | YSeq l => HQ l ((fix go l : Forall P l :=
                         match l with [] => Forall_nil _ | x :: l' => Forall_cons x (ynode_ind' x) (go l') end) l)
    | YMap d => HM d ((fix go d : Forall (fun kv => P (snd kv)) d :=
                         match d with [] => Forall_nil _
                         | kv :: d' => Forall_cons kv (ynode_ind' (snd kv)) (go d') end) d)
    end.
End YInd.

Lemma createHNodes_iff n : createHNodes n = true <-> no_key_twice n.
Proof.
  induction n as [|t|l IH|d IH] using ynode_ind'; simpl.
  - split; [constructor|reflexivity].
  - split; [constructor|reflexivity].
  - transitivity (Forall no_key_twice l).
    + induction IH as [|x l Hx _ IHl]; [split; [constructor|reflexivity]|].
      rewrite andb_true_iff, Hx, IHl. split; [intros []; constructor; auto|intros H; inversion H; auto].
    + split; [now constructor|intros H; now inversion H].
  - rewrite andb_true_iff, distinctb_NoDup.
    assert (E : (fix go (l : list (str * ynode)) : bool :=
                   match l with [] => true | kv :: l' => createHNodes (snd kv) && go l' end) d = true
                <-> Forall (fun kv => no_key_twice (snd kv)) d).
    { clear -IH. induction IH as [|x l Hx _ IHl]; [split; [constructor|reflexivity]|].
      rewrite andb_true_iff, Hx, IHl. split; [intros []; constructor; auto|intros H; inversion H; auto]. }
    rewrite E. split; [intros []; now constructor|intros H; inversion H; auto].
Qed.

Lemma mapping_value_none d k : mapping_value d k = None <-> absent d k.
Proof.
  unfold absent. induction d as [|[k' v] d IH]; simpl; [tauto|].
  destruct (str_eqb k' k) eqn:E.
  - apply str_eqb_eq in E as ->. split; [discriminate|]. intros H. exfalso. auto.
  - rewrite IH. split; [intros H [->|I]; auto; now rewrite (proj2 (str_eqb_eq k k) eq_refl) in E|auto].
Qed.
Lemma mapping_value_in d k v : mapping_value d k = Some v -> In (k, v) d.
Proof.
  induction d as [|[k' v'] d IH]; simpl; [discriminate|]. destruct (str_eqb k' k) eqn:E; auto.
  apply str_eqb_eq in E as ->. intros [= ->]. auto.
Qed.
Lemma in_mapping_value d k v : NoDup (map fst d) -> In (k, v) d -> mapping_value d k = Some v.
Proof.
  induction d as [|[k' v'] d IH]; simpl; [tauto|]. intros N [E|I].
  - injection E as -> ->. now rewrite (proj2 (str_eqb_eq k k) eq_refl).
  - inversion N as [|? ? Hn N']; subst. destruct (str_eqb k' k) eqn:E; auto. apply str_eqb_eq in E as ->.
    exfalso. apply Hn. now apply (in_map fst) in I.
Qed.
Lemma mapping_value_perm d d' k : NoDup (map fst d) -> Permutation d d' -> mapping_value d k = mapping_value d' k.
Proof.
  intros N P. destruct (mapping_value d k) as [v|] eqn:E.
  - symmetry. apply in_mapping_value.
    + eapply Permutation_NoDup; [apply (Permutation_map fst P)|auto].
    + eapply Permutation_in; [exact P|now apply mapping_value_in].
  - symmetry. apply mapping_value_none in E. apply mapping_value_none. unfold absent in *.
    intros I. apply E. eapply Permutation_in; [|exact I]. apply Permutation_sym, (Permutation_map fst P).
Qed.

(** Readers *)
Definition reads {T} (yamlize : ynode -> T -> T * bool) (means : ynode -> T -> Prop) (unsaid : T) : Prop :=
  forall n v, means n v -> yamlize n unsaid = (v, false).

Lemma read_said {T} (yz : ynode -> T -> T * bool) means unsaid d k :
  reads yz means unsaid -> NoDup (map fst d) -> shaped d k means ->
  exists v, mapOptional yz (YMap d) k unsaid false = (v, false) /\ says d k means unsaid v.
Proof.
  intros R N S. unfold mapOptional. destruct (mapping_value d k) as [n|] eqn:E.
  - apply mapping_value_in in E. destruct (S n E) as (v & M). exists v. split; [now apply R|].
    left. eauto.
  - exists unsaid. split; auto. right. split; auto. now apply mapping_value_none.
Qed.

Lemma reads_text : reads yamlize_text one_text [].
Proof. intros n v []. reflexivity. Qed.
Lemma fill_texts ts v : fill yamlize_text [] (map YScalar ts) v = (v ++ ts, false).
Proof.
  revert v. induction ts as [|t ts IH]; intros v; simpl; [now rewrite app_nil_r|].
  rewrite IH, <- app_assoc. reflexivity.
Qed.
Lemma isNull_in t : In t [$"null"; $"Null"; $"NULL"; $"~"] <-> isNull t = true.
Proof.
  unfold isNull. rewrite existsb_exists. split.
  - intros I. exists t. split; auto. now apply str_eqb_eq.
  - intros (y & I & E). apply str_eqb_eq in E as ->. auto.
Qed.
Lemma reads_texts : reads yamlize_texts text_list [].
Proof.
  intros n v []; simpl; auto; [apply (fill_texts ts [])|].
  apply isNull_in in H. now rewrite H.
Qed.
Lemma pair_item_read n kv : pair_item n kv -> yamlize_pair n ([], []) = (kv, false).
Proof.
  destruct kv as [k v]. intros [[-> [= -> ->]]|(d & -> & N & O & K & V)]; [reflexivity|]. cbn [fst snd] in K, V.
  assert (M : forall key x, says d key one_text [] x -> mapOptional yamlize_text (YMap d) key [] false = (x, false)).
  { intros key x [(n & I & M)|[A ->]]; unfold mapOptional.
    - inversion M; subst. now rewrite (in_mapping_value _ _ _ N I).
    - apply mapping_value_none in A. now rewrite A. }
  unfold yamlize_pair. cbn [fst snd]. rewrite (M _ _ K), (M _ _ V). f_equal. unfold endMapping.
  apply negb_false_iff, forallb_forall. intros [k' v'] I. apply (in_map fst), O in I. cbn [fst] in I |- *.
  destruct I as [-> | ->]; vm_compute; reflexivity.
Qed.
Lemma fill_pairs ns kvs v : Forall2 pair_item ns kvs -> fill yamlize_pair ([], []) ns v = (v ++ kvs, false).
Proof.
  intros F. revert v. induction F as [|n kv ns kvs H _ IH]; intros v; simpl; [now rewrite app_nil_r|].
  rewrite (pair_item_read _ _ H), IH, <- app_assoc. reflexivity.
Qed.
Lemma reads_pairs : reads yamlize_pairs pair_list [].
Proof.
  intros n v []; simpl; auto; [now apply (fill_pairs ns kvs [])|].
  apply isNull_in in H. now rewrite H.
Qed.
Lemma reads_flag : reads yamlize_tristate one_flag TUndefined.
Proof. intros n v []; reflexivity. Qed.

Definition char_is_digit (c : ascii) : Prop :=
  match digit_value c with
  | Some v => forall d, d < 16 -> (digit c d <-> v = Z.of_nat d)
  | None => forall d, d < 16 -> ~ digit c d
  end.
Lemma digit_value_spec c : char_is_digit c.
Proof.
  assert (Q : forall c, match digit_value c with
     | Some v => forallb (fun d => Bool.eqb (existsb (ascii_eqb c) [nth d $"0123456789abcdef" c; nth d $"0123456789ABCDEF" c]) (v =? Z.of_nat d)%Z) (seq 0 16)
     | None => forallb (fun d => negb (existsb (ascii_eqb c) [nth d $"0123456789abcdef" c; nth d $"0123456789ABCDEF" c])) (seq 0 16)
     end = true).
  { intros [[] [] [] [] [] [] [] []]; vm_compute; reflexivity. }
  specialize (Q c). unfold char_is_digit.
  assert (D : forall d, d < 16 -> (digit c d <-> existsb (ascii_eqb c) [nth d $"0123456789abcdef" c; nth d $"0123456789ABCDEF" c] = true)).
  { intros d L. unfold digit. rewrite (nth_error_nth' $"0123456789abcdef" c) by (vm_compute; lia).
    rewrite (nth_error_nth' $"0123456789ABCDEF" c) by (vm_compute; lia).
    cbn [existsb]. rewrite orb_false_r, orb_true_iff, !ascii_eqb_eq. split; intros [E|E]; [left|right|left|right]; congruence. }
  destruct (digit_value c) as [v|]; rewrite forallb_forall in Q; intros d L; rewrite (D d L);
    specialize (Q d (proj2 (in_seq _ _ _) (conj (Nat.le_0_l d) L))); cbv beta in Q.
  - apply Bool.eqb_prop in Q. rewrite Q. apply Z.eqb_eq.
  - apply negb_true_iff in Q. rewrite Q. discriminate.
Qed.
Lemma digits_radix_app r s t acc : digits_radix r (s ++ t) acc
  = match digits_radix r s acc with Some a => digits_radix r t a | None => None end.
Proof.
  revert acc. induction s as [|c s IH]; intros acc; simpl; auto.
  destruct (digit_value c) as [d|]; auto. destruct (d <? r)%Z; auto.
Qed.
Lemma digits_radix_spec base s z : base <= 16 -> s <> [] ->
  (digits_radix (Z.of_nat base) s 0 = Some z <-> in_base base s z).
Proof.
  intros L. revert z. induction s as [|c s IH] using rev_ind; intros z N; [congruence|].
  rewrite digits_radix_app. pose proof (digit_value_spec c) as Q. unfold char_is_digit in Q.
  assert (One : forall a, digits_radix (Z.of_nat base) [c] a = Some z <-> exists d, digit c d /\ d < base /\ z = (a * Z.of_nat base + Z.of_nat d)%Z).
  { intros a. simpl. destruct (digit_value c) as [v|] eqn:Ev.
    - destruct (v <? Z.of_nat base)%Z eqn:Lv.
      + apply Z.ltb_lt in Lv. split.
        * intros [= <-]. assert (0 <= v)%Z.
          { clear -Ev. unfold digit_value in Ev. unfold isdigit, islower, isupper in Ev.
            repeat (match type of Ev with context [if ?b then _ else _] => destruct b eqn:? end); try discriminate;
            injection Ev as <-; match goal with X : _ && _ = true |- _ => apply andb_true_iff in X as [X _]; apply Nat.leb_le in X end; lia. }
          exists (Z.to_nat v). rewrite (Q (Z.to_nat v)) by lia. rewrite Z2Nat.id by lia. repeat split; auto; lia.
        * intros (d & D & Ld & ->). apply Q in D; [|lia]. now subst v.
      + apply Z.ltb_ge in Lv. split; [discriminate|]. intros (d & D & Ld & _). apply Q in D; lia.
    - split; [discriminate|]. intros (d & D & Ld & _). exfalso. apply (Q d); auto. lia. }
  destruct s as [|c0 s0] eqn:Es.
  - cbn [digits_radix app]. change (match digit_value c with Some d => if (d <? Z.of_nat base)%Z then Some (0 * Z.of_nat base + d)%Z else None | None => None end)
      with (digits_radix (Z.of_nat base) [c] 0). rewrite One. split.
    + intros (d & D & Ld & ->). rewrite Z.mul_0_l, Z.add_0_l. now constructor.
    + intros B. inversion B as [? d D Ld|t z0 ? d B0 D Ld Et]; [exists d; auto|].
      exfalso. destruct t; [inversion B0; subst; try discriminate; destruct t; discriminate|destruct t; discriminate].
  - rewrite <- Es in *. assert (Ns : s <> []) by (rewrite Es; discriminate). clear Es c0 s0. split.
    + destruct (digits_radix (Z.of_nat base) s 0) as [a|] eqn:Ea; [|discriminate]. intros E.
      apply One in E as (d & D & Ld & ->). constructor; auto. now apply IH.
    + intros B. inversion B as [? d D Ld Ec|t z0 ? d B0 D Ld Et].
      * exfalso. destruct s as [|? [|]]; try discriminate; congruence.
      * apply app_inj_tail in Et as [-> ->]. apply IH in B0; auto. rewrite B0, H0. apply One. exists d. auto.
Qed.
Lemma in_base_nonempty b t z : in_base b t z -> t <> [].
Proof. intros B. destruct B; [discriminate|]. destruct t; discriminate. Qed.
Lemma base_first b c r z : in_base b (c :: r) z -> exists d, digit c d /\ d < b.
Proof.
  remember (c :: r) as t eqn:E. intros B. revert c r E. induction B as [x d D L|t z x d B IH D L]; intros c r E.
  - injection E as -> _. eauto.
  - destruct t as [|y t]; [now apply in_base_nonempty in B|]. injection E as -> _. eapply IH; reflexivity.
Qed.
Lemma unsigned_spec t z : getAsUnsigned t = Some z <-> unsigned_numeral t z.
Proof.
  assert (G : forall b r z, b <= 16 -> (match r with [] => None | _ => digits_radix (Z.of_nat b) r 0 end = Some z <-> in_base b r z)).
  { clear. intros b r z L. destruct r as [|c r]; [|apply digits_radix_spec; auto; discriminate].
    split; [discriminate|]. intros B. now apply in_base_nonempty in B. }
  unfold getAsUnsigned. split.
  - unfold getAutoSenseRadix. destruct t as [|a [|c r]].
    + discriminate.
    + intros E. apply (G 10 [a]) in E; [|lia]. constructor; auto. intros r [= _ <-]. reflexivity.
    + destruct (ascii_eqb a "0"%char) eqn:Ea.
      * apply ascii_eqb_eq in Ea as ->.
        destruct (ascii_eqb c "x"%char || ascii_eqb c "X"%char) eqn:E1.
        { intros E. apply (G 16 r) in E; [|lia]. apply orb_true_iff in E1 as [E1|E1]; apply ascii_eqb_eq in E1 as ->.
          - apply (un_hexadecimal $"0x"); simpl; auto.
          - apply (un_hexadecimal $"0X"); simpl; auto. }
        destruct (ascii_eqb c "b"%char || ascii_eqb c "B"%char) eqn:E2.
        { intros E. apply (G 2 r) in E; [|lia]. apply orb_true_iff in E2 as [E2|E2]; apply ascii_eqb_eq in E2 as ->.
          - apply (un_binary $"0b"); simpl; auto.
          - apply (un_binary $"0B"); simpl; auto. }
        destruct (ascii_eqb c "o"%char) eqn:E3.
        { intros E. apply (G 8 r) in E; [|lia]. apply ascii_eqb_eq in E3 as ->. apply (un_octal $"0o"); simpl; auto. }
        destruct (isdigit c) eqn:E4.
        { intros E. apply (G 8 (c :: r)) in E; [|lia]. apply (un_octal $"0" (c :: r)); simpl; auto. }
        intros E. exfalso. revert E.
        cbn [digits_radix]. change (digit_value "0"%char) with (Some 0%Z). cbn. unfold digit_value. rewrite E4.
        destruct (islower c) eqn:Lo; [unfold islower in Lo; apply andb_true_iff in Lo as [X _]; apply Nat.leb_le in X;
          replace (Z.of_nat (code c) - 87 <? 10)%Z with false by (symmetry; apply Z.ltb_ge; lia); discriminate|].
        destruct (isupper c) eqn:Up; [unfold isupper in Up; apply andb_true_iff in Up as [X _]; apply Nat.leb_le in X;
          replace (Z.of_nat (code c) - 55 <? 10)%Z with false by (symmetry; apply Z.ltb_ge; lia); discriminate|discriminate].
      * intros E. apply (G 10 (a :: c :: r)) in E; [|lia]. constructor; auto. intros r' [= -> _].
        now rewrite (proj2 (ascii_eqb_eq _ _) eq_refl) in Ea.
  - intros U. destruct U as [t z B F|p t z P B|p t z P B|p t z P B].
    + assert (R : getAutoSenseRadix t = (10%Z, t)).
      { destruct t as [|a [|c r]]; try reflexivity. unfold getAutoSenseRadix. destruct (ascii_eqb a "0"%char) eqn:Ea; auto.
        apply ascii_eqb_eq in Ea as ->. specialize (F _ eq_refl). discriminate. }
      rewrite R. apply (G 10); [lia|exact B].
    + destruct P as [<-|[<-|[]]]; apply (G 16); first [lia|exact B].
    + destruct P as [<-|[<-|[]]]; apply (G 2); first [lia|exact B].
    + destruct P as [<-|[<-|[]]]; [apply (G 8); [lia|exact B]|].
      destruct t as [|c r]; [now apply in_base_nonempty in B|].
      assert (R : getAutoSenseRadix ($"0" ++ c :: r) = (8%Z, c :: r)); [|rewrite R; apply (G 8 (c :: r)); [lia|exact B]].
      destruct (base_first _ _ _ _ B) as (d & [D|D] & L);
        do 8 (destruct d as [|d]; [injection D as <-; reflexivity|]); lia.
Qed.
Lemma numeral_signed t z : getAsSigned t = Some z <-> numeral t z.
Proof.
  assert (M : forall r y, ~ unsigned_numeral ("-"%char :: r) y).
  { intros r y U. apply unsigned_spec in U. destruct r; discriminate U. }
  split.
  - unfold getAsSigned. destruct t as [|c r]; [discriminate|]. destruct (ascii_eqb c "-"%char) eqn:E.
    + apply ascii_eqb_eq in E as ->. destruct (getAsUnsigned r) as [y|] eqn:Y; [|discriminate]. intros [= <-].
      apply nu_minus. now apply unsigned_spec.
    + intros Y. constructor. now apply unsigned_spec.
  - intros [t' y U|t' y U].
    + destruct t' as [|c r]; [apply unsigned_spec in U; discriminate|]. unfold getAsSigned.
      destruct (ascii_eqb c "-"%char) eqn:E; [apply ascii_eqb_eq in E as ->; now apply M in U|now apply unsigned_spec].
    + unfold getAsSigned. rewrite (proj2 (ascii_eqb_eq _ _) eq_refl). apply unsigned_spec in U. now rewrite U.
Qed.
Lemma digits_radix_10 ds acc : Forall (fun x => isdigit x = true) ds ->
  digits_radix 10 ds acc = Some (acc * 10 ^ Z.of_nat (length ds) + value_of_digits ds)%Z.
Proof.
  intros F. revert acc. induction F as [|c ds H F IH]; intros acc; [simpl; f_equal; lia|].
  cbn [digits_radix value_of_digits length]. unfold digit_value. rewrite H.
  pose proof (isdigit_bounds c H).
  replace (Z.of_nat (code c) - 48 <? 10)%Z with true by (symmetry; apply Z.ltb_lt; lia).
  rewrite IH. f_equal. rewrite Nat2Z.inj_succ, Z.pow_succ_r by lia. ring.
Qed.
Lemma decimal_unsigned t z : decimal t z -> (forall r, t <> "-"%char :: r) -> getAsUnsigned t = Some z.
Proof.
  intros D N. destruct D as [|c ds H Hc F|t z D Nt]; [reflexivity| |exfalso; eapply N; reflexivity].
  unfold getAsUnsigned, getAutoSenseRadix.
  assert (E : ascii_eqb c "0"%char = false) by now apply ascii_eqb_neq.
  destruct ds as [|x r]; [|rewrite E]; rewrite digits_radix_10 by (constructor; auto); f_equal; lia.
Qed.
Lemma decimal_signed t z : decimal t z -> getAsSigned t = Some z.
Proof.
  intros D. destruct D as [|c ds H Hc F|t z D Nt].
  - reflexivity.
  - unfold getAsSigned. destruct (ascii_eqb c "-"%char) eqn:E.
    + apply ascii_eqb_eq in E as ->. discriminate H.
    + apply decimal_unsigned; [now constructor|]. intros r [= -> _]. discriminate H.
  - unfold getAsSigned. rewrite (proj2 (ascii_eqb_eq _ _) eq_refl), (decimal_unsigned _ _ D Nt). reflexivity.
Qed.
Lemma decimal_numeral t z : decimal t z -> numeral t z.
Proof. intros D. apply numeral_signed. now apply decimal_signed. Qed.
Lemma in_intb_iff z : in_intb z = true <-> in_int z.
Proof. unfold in_intb, in_int. rewrite andb_true_iff, !Z.leb_le. tauto. Qed.
Lemma reads_number : reads yamlize_int one_number INT_MIN.
Proof.
  intros n v []. unfold yamlize_int. rewrite (proj2 (numeral_signed _ _) H). apply in_intb_iff in H0. now rewrite H0.
Qed.

(** Wrong values *)
Lemma fill_snd {T} (yz : ynode -> T -> T * bool) fresh l n v :
  In n l -> snd (yz n fresh) = true -> snd (fill yz fresh l v) = true.
Proof.
  intros I E. revert v. induction l as [|m l IH]; [destruct I|]. intros v. simpl.
  destruct (yz m fresh) as [x err] eqn:Em. destruct err; [reflexivity|].
  destruct I as [->|I]; [rewrite Em in E; discriminate|auto].
Qed.
Lemma pair_wrong n : n <> YEmpty -> (forall d, n <> YMap d) -> snd (yamlize_pair n ([], [])) = true.
Proof. destruct n; intros H1 H2; [congruence|reflexivity|reflexivity|exfalso; eapply H2; reflexivity]. Qed.
Lemma pair_wrong_key d name v : In (name, v) d -> name <> $"key" -> name <> $"value" ->
  snd (yamlize_pair (YMap d) ([], [])) = true.
Proof.
  intros I N1 N2. unfold yamlize_pair. destruct (mapOptional _ _ _ _ _) as [a e1].
  destruct (mapOptional _ _ _ _ _) as [b e2]. simpl snd. unfold endMapping. destruct e2; auto.
  apply negb_true_iff. apply not_true_iff_false. intros F. rewrite forallb_forall in F.
  specialize (F _ I). apply existsb_exists in F as (y & [<-|[<-|[]]] & F); apply str_eqb_eq in F; auto.
Qed.
Lemma pair_wrong_value d name v : NoDup (map fst d) -> In (name, v) d -> (forall t, v <> YScalar t) ->
  snd (yamlize_pair (YMap d) ([], [])) = true.
Proof.
  intros N I W. destruct (str_eqb name $"key") eqn:E1; [apply str_eqb_eq in E1 as ->|].
  - unfold yamlize_pair. unfold mapOptional at 1. rewrite (in_mapping_value _ _ _ N I).
    destruct v; try reflexivity. exfalso. eapply W; reflexivity.
  - destruct (str_eqb name $"value") eqn:E2; [apply str_eqb_eq in E2 as ->|].
    + unfold yamlize_pair. destruct (mapOptional yamlize_text (YMap d) $"key" _ false) as [a [|]]; [reflexivity|].
      unfold mapOptional. rewrite (in_mapping_value _ _ _ N I). destruct v; try reflexivity. exfalso. eapply W; reflexivity.
    + apply str_eqb_neq in E1, E2. eapply pair_wrong_key; eauto.
Qed.
Definition keys_apart (a b : list str) : bool := forallb (fun x => negb (existsb (str_eqb x) b)) a.
Lemma apart a b k : keys_apart a b = true -> In k a -> In k b -> False.
Proof.
  intros K A B. unfold keys_apart in K. rewrite forallb_forall in K. specialize (K k A).
  apply negb_true_iff in K. rewrite <- not_true_iff_false in K. apply K. apply existsb_exists.
  exists k. split; auto. now apply str_eqb_eq.
Qed.
Ltac absurd_key := exfalso; match goal with A : In ?k _, B : In ?k _ |- _ =>
  refine (apart _ _ k _ A B); vm_compute; reflexivity end.

Lemma wrong_texts k n : In k lists_of_texts -> wrong_under k n -> snd (yamlize_texts n []) = true.
Proof.
  intros I W. destruct W; try absurd_key; simpl; auto.
  - rewrite isNull_in, not_true_iff_false in H0. now rewrite H0.
  - eapply fill_snd; eauto. destruct n; try reflexivity. exfalso. eapply H1; reflexivity.
Qed.
Lemma wrong_pairs k n : In k lists_of_pairs -> wrong_under k n -> snd (yamlize_pairs n []) = true.
Proof.
  intros I W. destruct W; try absurd_key; simpl; auto.
  - rewrite isNull_in, not_true_iff_false in H0. now rewrite H0.
  - eapply fill_snd; eauto. now apply pair_wrong.
  - eapply fill_snd; eauto. eapply pair_wrong_key; eauto.
  - eapply fill_snd; eauto. eapply pair_wrong_value; eauto.
Qed.
Lemma wrong_text k n : In k texts -> wrong_under k n -> snd (yamlize_text n []) = true.
Proof.
  intros I W. destruct W; try absurd_key. destruct n; try reflexivity. exfalso. eapply H0; reflexivity.
Qed.
Lemma wrong_number k n v : In k numbers -> wrong_under k n -> snd (yamlize_int n v) = true.
Proof.
  intros I W. destruct W; try absurd_key.
  - destruct n; try reflexivity. exfalso. eapply H0; reflexivity.
  - unfold yamlize_int. destruct (getAsSigned t) as [z|] eqn:E; [|reflexivity]. apply numeral_signed in E. now apply H0 in E.
  - unfold yamlize_int. rewrite (proj2 (numeral_signed _ _) H0). rewrite <- in_intb_iff, not_true_iff_false in H1.
    now rewrite H1.
Qed.
Lemma wrong_flag k n v : In k flags -> wrong_under k n -> snd (yamlize_tristate n v) = true.
Proof.
  intros I W. destruct W; try absurd_key.
  - destruct n; try reflexivity. exfalso. eapply H0; reflexivity.
  - unfold yamlize_tristate. apply str_eqb_neq in H0, H1. now rewrite H0, H1.
Qed.

Lemma read_wrong {T} (yz : ynode -> T -> T * bool) unsaid d k n :
  NoDup (map fst d) -> In (k, n) d -> snd (yz n unsaid) = true ->
  exists v, mapOptional yz (YMap d) k unsaid false = (v, true).
Proof.
  intros N I E. unfold mapOptional. rewrite (in_mapping_value _ _ _ N I).
  destruct (yz n unsaid) as [v err]. simpl in E. subst err. eauto.
Qed.
Lemma read_err {T} (yz : ynode -> T -> T * bool) n k v : mapOptional yz n k v true = (v, true).
Proof. reflexivity. Qed.

(** Everything before the wrong key is read, everything after it is not. *)
Ltac in_list := cbn; repeat (first [left; reflexivity | right]).
Ltac ok_step A N :=
  match goal with
  | |- context [mapOptional ?yz (YMap ?d) ?k ?u false] =>
      let R := match yz with
               | yamlize_texts => constr:(reads_texts) | yamlize_pairs => constr:(reads_pairs)
               | yamlize_text => constr:(reads_text) | yamlize_int => constr:(reads_number)
               | yamlize_tristate => constr:(reads_flag) end in
      let v := fresh "v" in let E := fresh "E" in let S := fresh "S" in
      destruct (read_said _ _ _ d k R N) as (v & E & S);
      [destruct A as (A1 & A2 & A3 & A4 & A5);
       first [apply A1; in_list; fail | apply A2; in_list; fail | apply A3; in_list; fail | apply A4; in_list; fail | apply A5; in_list; fail]
      |rewrite E; clear E]
  end.
Ltac err_step W N I :=
  match goal with
  | |- context [mapOptional ?yz (YMap ?d) ?k ?u false] =>
      let v := fresh "v" in let E := fresh "E" in
      destruct (read_wrong yz u d k _ N I) as (v & E);
      [first [eapply wrong_texts | eapply wrong_pairs | eapply wrong_text | eapply wrong_number | eapply wrong_flag];
       [|exact W]; in_list
      |rewrite E; clear E]
  end.
Ltac finish_key :=
  match goal with
  | |- set_by _ _ ?k =>
    first [apply sb_rules | apply sb_disable | apply sb_paths | apply sb_conf | apply sb_output | apply sb_type
     | apply sb_p1 | apply sb_p2 | apply sb_p3 | apply sb_checker | apply sb_dup | apply sb_global];
    cbn [cf_rules cf_disableRules cf_rulePaths cf_ruleConfigurations cf_output cf_reportType cf_maxP1 cf_maxP2
      cf_maxP3 cf_clangChecker cf_allowDuplicatedViolations cf_enableGlobalAnalysis];
    first [assumption | right; split; [intros []|reflexivity]]
  end.
Ltac reduce_initial := unfold ConfigFile_mapping;
  cbn [cf_initial cf_rules cf_disableRules cf_rulePaths cf_ruleConfigurations cf_output cf_reportType cf_maxP1
    cf_maxP2 cf_maxP3 cf_clangChecker cf_allowDuplicatedViolations cf_enableGlobalAnalysis].

Lemma mapping_ok d : NoDup (map fst d) -> all_shaped d known_keys ->
  forall k, In k known_keys -> set_by d (fst (ConfigFile_mapping (YMap d) cf_initial)) k.
Proof.
  intros N A k I. reduce_initial. repeat ok_step A N. cbn [fst].
  unfold known_keys, lists_of_texts, lists_of_pairs, texts, numbers, flags in I. cbn [app In] in I.
  decompose [or] I; clear I; try contradiction; subst k; finish_key.
Qed.

Ltac fault_case W N I A :=
  reduce_initial; repeat ok_step A N; err_step W N I; rewrite ?read_err; cbn [fst];
  split;
  [intros k Ik; cbn [In] in Ik; repeat (destruct Ik as [<-|Ik]; [finish_key|]); destruct Ik
  |intros k Ik; cbn [In] in Ik; repeat (destruct Ik as [<-|Ik]; [finish_key|]); destruct Ik].
Lemma mapping_fault d before key after n : NoDup (map fst d) ->
  known_keys = before ++ key :: after -> all_shaped d before -> In (key, n) d -> wrong_under key n ->
  (forall k, In k before -> set_by d (fst (ConfigFile_mapping (YMap d) cf_initial)) k)
  /\ (forall k, In k after -> set_by [] (fst (ConfigFile_mapping (YMap d) cf_initial)) k).
Proof.
  intros N K A I W. unfold known_keys, lists_of_texts, lists_of_pairs, texts, numbers, flags in K.
  cbn [app] in K.
  do 13 (destruct before as [|b before];
    [cbn [app] in K; first [discriminate K | injection K as <- <-; fault_case W N I A]
    |cbn [app] in K; first [discriminate K | injection K as <- K]]).
Qed.

(** What is left under the wrong key itself. *)
Lemma own_text n : (forall t, n <> YScalar t) -> yamlize_text n [] = ([], true).
Proof. destruct n; intros H; try reflexivity. exfalso. eapply H; reflexivity. Qed.
Lemma own_number n u : snd (yamlize_int n u) = true -> fst (yamlize_int n u) = u.
Proof. destruct n; auto. unfold yamlize_int. destruct (getAsSigned text); auto. destruct (in_intb z); auto. discriminate. Qed.
Lemma own_flag n u : snd (yamlize_tristate n u) = true -> fst (yamlize_tristate n u) = u.
Proof. destruct n; auto. unfold yamlize_tristate. do 2 (destruct (str_eqb text _); [discriminate|]). auto. Qed.
Lemma own_seq {T} (yz : ynode -> T -> T * bool) fresh n : (forall l, n <> YSeq l) -> fst (yamlize_seq yz fresh n []) = [].
Proof. destruct n; auto. intros H. exfalso. eapply H; reflexivity. Qed.
Lemma fill_app {T} (yz : ynode -> T -> T * bool) fresh a b v w :
  fill yz fresh a v = (w, false) -> fill yz fresh (a ++ b) v = fill yz fresh b w.
Proof.
  revert v. induction a as [|x a IH]; intros v; simpl; [now intros [= ->]|].
  destruct (yz x fresh) as [y err]. destruct err; [discriminate|apply IH].
Qed.
Lemma own_texts ts x rest : (forall t, x <> YScalar t) ->
  yamlize_texts (YSeq (map YScalar ts ++ x :: rest)) [] = (ts ++ [[]], true).
Proof.
  intros H. unfold yamlize_texts, yamlize_seq. rewrite (fill_app _ _ _ _ _ _ (fill_texts ts [])). cbn [fill app].
  now rewrite (own_text x H).
Qed.
Lemma own_pairs ns kvs x rest : Forall2 pair_item ns kvs -> snd (yamlize_pair x ([], [])) = true ->
  fst (yamlize_pairs (YSeq (ns ++ x :: rest)) []) = kvs ++ [fst (yamlize_pair x ([], []))].
Proof.
  intros F E. unfold yamlize_pairs, yamlize_seq. rewrite (fill_app _ _ _ _ _ _ (fill_pairs ns kvs [] F)). cbn [fill app].
  destruct (yamlize_pair x ([], [])) as [y e]. cbn [snd] in E. now rewrite E.
Qed.
Definition left_under (key : str) (n : ynode) (f : configfile) : Prop :=
  (key = $"rules" -> cf_rules f = fst (yamlize_texts n []))
  /\ (key = $"disable-rules" -> cf_disableRules f = fst (yamlize_texts n []))
  /\ (key = $"rule-paths" -> cf_rulePaths f = fst (yamlize_texts n []))
  /\ (key = $"rule-configurations" -> cf_ruleConfigurations f = fst (yamlize_pairs n []))
  /\ (key = $"output" -> cf_output f = fst (yamlize_text n []))
  /\ (key = $"report-type" -> cf_reportType f = fst (yamlize_text n []))
  /\ (key = $"max-priority-1" -> cf_maxP1 f = fst (yamlize_int n INT_MIN))
  /\ (key = $"max-priority-2" -> cf_maxP2 f = fst (yamlize_int n INT_MIN))
  /\ (key = $"max-priority-3" -> cf_maxP3 f = fst (yamlize_int n INT_MIN))
  /\ (key = $"enable-clang-static-analyzer" -> cf_clangChecker f = fst (yamlize_tristate n TUndefined))
  /\ (key = $"allow-duplicated-violations" -> cf_allowDuplicatedViolations f = fst (yamlize_tristate n TUndefined))
  /\ (key = $"enable-global-analysis" -> cf_enableGlobalAnalysis f = fst (yamlize_tristate n TUndefined)).
Lemma read_at {T} (yz : ynode -> T -> T * bool) u d k n : NoDup (map fst d) -> In (k, n) d ->
  mapOptional yz (YMap d) k u false = yz n u.
Proof. intros N I. unfold mapOptional. now rewrite (in_mapping_value _ _ _ N I). Qed.
Ltac own_case N I A :=
  reduce_initial; repeat ok_step A N;
  match goal with |- context [mapOptional ?yz (YMap ?d) ?k ?u false] => rewrite (read_at yz u d k _ N I) end;
  repeat match goal with |- context [let (a, b) := ?e in _] => let E := fresh "E" in destruct e as [? ?] eqn:E end;
  unfold left_under; cbn [fst cf_rules cf_disableRules cf_rulePaths cf_ruleConfigurations cf_output cf_reportType cf_maxP1 cf_maxP2
      cf_maxP3 cf_clangChecker cf_allowDuplicatedViolations cf_enableGlobalAnalysis];
  repeat split; intros X; first [discriminate X | congruence | clear X; match goal with E : _ = (?a, _) |- ?a = fst _ => rewrite E; reflexivity end].
Lemma mapping_own d before key after n : NoDup (map fst d) ->
  known_keys = before ++ key :: after -> all_shaped d before -> In (key, n) d ->
  left_under key n (fst (ConfigFile_mapping (YMap d) cf_initial)).
Proof.
  intros N K A I. unfold known_keys, lists_of_texts, lists_of_pairs, texts, numbers, flags in K.
  cbn [app] in K.
  do 13 (destruct before as [|b before];
    [cbn [app] in K; first [discriminate K | injection K as <- <-; own_case N I A]
    |cbn [app] in K; first [discriminate K | injection K as <- K]]).
Qed.

(** Only what [mapping_value] answers for the known keys matters. *)
Lemma mapping_ext d d' : (forall k, In k known_keys -> mapping_value d k = mapping_value d' k) ->
  fst (ConfigFile_mapping (YMap d) cf_initial) = fst (ConfigFile_mapping (YMap d') cf_initial).
Proof.
  intros H.
  assert (E : forall T (yz : ynode -> T -> T * bool) k v e, In k known_keys ->
              mapOptional yz (YMap d) k v e = mapOptional yz (YMap d') k v e).
  { intros T yz k v e I. unfold mapOptional. now rewrite H. }
  unfold ConfigFile_mapping.
  repeat (rewrite E by in_list; match goal with |- context [mapOptional ?a (YMap d') ?k ?v ?e] =>
    destruct (mapOptional a (YMap d') k v e) end).
  reflexivity.
Qed.

(** References *)
Lemma omap_total {A B} (f : A -> outcome B) g l : (forall x, In x l -> f x = Val (g x)) -> omap f l = Val (map g l).
Proof.
  induction l as [|x l IH]; intros H; simpl; auto. rewrite (H x (or_introl eq_refl)). simpl.
  rewrite IH by (intros; apply H; now right). reflexivity.
Qed.
Lemma omap_ub {A B} (f : A -> outcome B) l x : (forall y, In y l -> f y = UB \/ exists b, f y = Val b) ->
  In x l -> f x = UB -> omap f l = UB.
Proof.
  induction l as [|y l IH]; intros H I E; [destruct I|]. simpl.
  destruct (H y (or_introl eq_refl)) as [->|(b & Eb)]; auto. destruct I as [->|I]; [congruence|].
  rewrite Eb. simpl. rewrite IH; auto. intros z Iz. apply H. now right.
Qed.
Lemma copy_alive t : sref_str true (from_file t) = Val t.
Proof. destruct t; reflexivity. Qed.
Lemma copy_dead t : sref_str false (from_file t) = if is_nil t then Val [] else UB.
Proof. destruct t; reflexivity. Qed.

Lemma refs_alive s f : processConfigFile_refs true s f = Val (processConfigFile s f).
Proof.
  unfold processConfigFile_refs. cbv zeta.
  rewrite (omap_total _ (fun kv => kv)) by (intros [k v] _; cbn [fst snd]; rewrite !copy_alive; reflexivity).
  cbn [obind].
  rewrite (omap_total _ (fun t => t) (cf_rulePaths f)) by (intros t _; apply copy_alive). cbn [obind].
  rewrite (omap_total _ (fun t => t) (cf_rules f)) by (intros t _; apply copy_alive). cbn [obind].
  rewrite (omap_total _ (fun t => t) (cf_disableRules f)) by (intros t _; apply copy_alive). cbn [obind].
  rewrite !copy_alive. cbn [obind]. rewrite !map_id. destruct f; reflexivity.
Qed.

Lemma refs_dead_ok s f : Forall (fun t => t = []) (texts_of f) ->
  processConfigFile_refs false s f = Val (processConfigFile s f).
Proof.
  unfold texts_of. rewrite !Forall_app, !Forall_map. intros (K & V & P & R & D & O).
  inversion O as [|? ? O1 O2]; subst. inversion O2 as [|? ? O3 _]; subst. clear O O2.
  assert (C : forall l, Forall (fun t : str => t = []) l ->
            omap (fun t => sref_str false (from_file t)) l = Val (map (fun t => t) l)).
  { intros l F. apply omap_total. intros t I. rewrite Forall_forall in F. rewrite (F t I). reflexivity. }
  rewrite Forall_forall in K, V.
  unfold processConfigFile_refs. cbv zeta.
  rewrite (omap_total _ (fun kv => kv)).
  2:{ intros [k v] I. pose proof (K _ I) as Ek. pose proof (V _ I) as Ev. cbn [fst snd] in *. subst. reflexivity. }
  cbn [obind]. rewrite !C by auto. cbn [obind]. rewrite O1, O3. cbn [obind sref_str from_file r_text is_nil].
  rewrite !map_id. destruct f; cbn in *; subst; reflexivity.
Qed.
Lemma refs_dead_ub s f t : In t (texts_of f) -> t <> [] -> processConfigFile_refs false s f = UB.
Proof.
  intros I N. unfold processConfigFile_refs. cbv zeta.
  assert (D : forall t, sref_str false (from_file t) = UB \/ exists b, sref_str false (from_file t) = Val b).
  { intros u. rewrite copy_dead. destruct (is_nil u); eauto. }
  assert (U : sref_str false (from_file t) = UB) by (rewrite copy_dead; destruct t; [congruence|reflexivity]).
  set (g := fun kv : str * str => _).
  assert (Dg : forall kv, g kv = UB \/ exists b, g kv = Val b).
  { intros kv. unfold g. destruct (D (fst kv)) as [->|(k & ->)]; cbn [obind]; auto.
    destruct (D (snd kv)) as [->|(v & ->)]; cbn [obind]; eauto. }
  assert (Og : forall l, omap g l = UB \/ exists b, omap g l = Val b).
  { induction l as [|x l IH]; simpl; eauto. destruct (Dg x) as [->|(b & ->)]; cbn [obind]; auto.
    destruct IH as [->|(bs & ->)]; cbn [obind]; eauto. }
  assert (Ot : forall l, omap (fun t => sref_str false (from_file t)) l = UB
                         \/ exists b, omap (fun t => sref_str false (from_file t)) l = Val b).
  { induction l as [|x l IH]; simpl; eauto. destruct (D x) as [->|(b & ->)]; cbn [obind]; auto.
    destruct IH as [->|(bs & ->)]; cbn [obind]; eauto. }
  unfold texts_of in I. rewrite !in_app_iff in I.
  assert (Gg : In t (map fst (cf_ruleConfigurations f)) \/ In t (map snd (cf_ruleConfigurations f)) ->
               omap g (cf_ruleConfigurations f) = UB).
  { intros [J|J]; apply in_map_iff in J as (kv & E & J); apply (omap_ub _ _ kv); auto; unfold g; subst t.
    - now rewrite U.
    - rewrite U. destruct (D (fst kv)) as [->|(k & ->)]; reflexivity. }
  assert (Gt : forall l, In t l -> omap (fun t => sref_str false (from_file t)) l = UB).
  { intros l J. apply (omap_ub _ _ t); auto. }
  destruct (Og (cf_ruleConfigurations f)) as [->|(b1 & E1)]; [reflexivity|].
  destruct I as [I|[I|I]]; [rewrite Gg in E1 by auto; discriminate E1|rewrite Gg in E1 by auto; discriminate E1|].
  rewrite E1. cbn [obind].
  destruct (Ot (cf_rulePaths f)) as [->|(b2 & E2)]; [reflexivity|].
  destruct I as [I|I]; [rewrite (Gt _ I) in E2; discriminate E2|]. rewrite E2. cbn [obind].
  destruct (Ot (cf_rules f)) as [->|(b3 & E3)]; [reflexivity|].
  destruct I as [I|I]; [rewrite (Gt _ I) in E3; discriminate E3|]. rewrite E3. cbn [obind].
  destruct (Ot (cf_disableRules f)) as [->|(b4 & E4)]; [reflexivity|].
  destruct I as [I|I]; [rewrite (Gt _ I) in E4; discriminate E4|]. rewrite E4. cbn [obind].
  destruct (D (cf_output f)) as [->|(b5 & E5)]; [reflexivity|]. rewrite E5. cbn [obind].
  destruct I as [I|[I|[]]]; [rewrite I in E5; congruence|]. rewrite I, U. reflexivity.
Qed.
