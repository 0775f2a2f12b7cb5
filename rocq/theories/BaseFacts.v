(** * Facts about the base vocabulary *)
From Verif Require Import Base.

Lemma ascii_eqb_eq a b : ascii_eqb a b = true <-> a = b.
Proof. apply Ascii.eqb_eq. Qed.

Lemma ascii_eqb_neq a b : ascii_eqb a b = false <-> a <> b.
Proof. apply Ascii.eqb_neq. Qed.

Lemma ascii_eqb_refl a : ascii_eqb a a = true.
Proof. apply Ascii.eqb_refl. Qed.

Lemma str_eqb_eq a b : str_eqb a b = true <-> a = b.
Proof.
  revert b; induction a as [|x a IH]; intros [|y b]; simpl; split; intros H; try easy.
  - apply andb_true_iff in H as [H1 H2]. apply ascii_eqb_eq in H1. apply IH in H2. congruence.
  - inversion H; subst. rewrite ascii_eqb_refl. now apply IH.
Qed.

Lemma str_eqb_refl a : str_eqb a a = true.
Proof. now apply str_eqb_eq. Qed.

Lemma str_eqb_neq a b : str_eqb a b = false <-> a <> b.
Proof.
  rewrite <- str_eqb_eq. destruct (str_eqb a b); split; intros H; congruence.
Qed.

Lemma str_eq_dec (a b : str) : {a = b} + {a <> b}.
Proof.
  destruct (str_eqb a b) eqn:E; [left; now apply str_eqb_eq | right; now apply str_eqb_neq].
Qed.

Lemma is_nil_true {A} (l : list A) : is_nil l = true <-> l = [].
Proof. destruct l; simpl; split; congruence. Qed.

Lemma is_nil_false {A} (l : list A) : is_nil l = false <-> l <> [].
Proof. destruct l; simpl; split; congruence. Qed.

Lemma prefixb_spec p s : prefixb p s = true <-> exists t, s = p ++ t.
Proof.
  revert s; induction p as [|x p IH]; intros s; simpl.
  - split; [intros _; now exists s | easy].
  - destruct s as [|y s]; simpl.
    + split; [easy | intros [t Ht]; discriminate].
    + rewrite andb_true_iff, ascii_eqb_eq, IH. split.
      * intros [-> [t ->]]. now exists t.
      * intros [t Ht]. inversion Ht; subst. split; [reflexivity | now exists t].
Qed.

(** [find_sub p s = Some n] iff [n] is the least position at which [p] occurs. *)
Lemma find_sub_some p s n :
  find_sub p s = Some n ->
  exists a b, s = a ++ p ++ b /\ length a = n /\
              (forall a' b', s = a' ++ p ++ b' -> n <= length a').
Proof.
  revert n; induction s as [|x s IH]; intros n; simpl.
  - destruct (prefixb p []) eqn:E; [|discriminate].
    intros [= <-]. apply prefixb_spec in E as [t Ht].
    exists [], t. repeat split; auto. intros; lia.
  - destruct (prefixb p (x :: s)) eqn:E.
    + intros [= <-]. apply prefixb_spec in E as [t Ht].
      exists [], t. repeat split; auto. intros; lia.
    + destruct (find_sub p s) as [m|] eqn:F; [|discriminate].
      intros [= <-]. destruct (IH m eq_refl) as (a & b & Hs & Hl & Hmin).
      exists (x :: a), b. repeat split; simpl; [now rewrite Hs | lia |].
      intros a' b' Hab. destruct a' as [|z a']; simpl in *.
      * exfalso. assert (prefixb p (x :: s) = true) by (apply prefixb_spec; now exists b').
        congruence.
      * inversion Hab; subst. specialize (Hmin a' b' H1). lia.
Qed.

Lemma find_sub_none p s :
  find_sub p s = None <-> (forall a b, s <> a ++ p ++ b).
Proof.
  induction s as [|x s IH]; simpl.
  - destruct (prefixb p []) eqn:E.
    + split; [discriminate|]. intros H. apply prefixb_spec in E as [t Ht].
      exfalso. now apply (H [] t).
    + split; [|easy]. intros _ a b H. destruct a; [|discriminate]. simpl in H.
      assert (prefixb p [] = true) by (apply prefixb_spec; now exists b). congruence.
  - destruct (prefixb p (x :: s)) eqn:E.
    + split; [discriminate|]. intros H. apply prefixb_spec in E as [t Ht].
      exfalso. now apply (H [] t).
    + destruct (find_sub p s) as [m|] eqn:F.
      * split; [discriminate|]. intros H. exfalso.
        assert (Hn : Some m = None); [|discriminate].
        apply IH. intros a b Hab. apply (H (x :: a) b). simpl. now rewrite Hab.
      * split; [|easy]. intros _ a b H. destruct a as [|z a]; simpl in H.
        -- assert (prefixb p (x :: s) = true) by (apply prefixb_spec; now exists b). congruence.
        -- inversion H; subst. destruct IH as [IH _]. now apply (IH eq_refl a b).
Qed.

Lemma find_char_some c s n :
  find_char c s = Some n -> exists a b, s = a ++ c :: b /\ length a = n /\ ~ In c a.
Proof.
  revert n; induction s as [|x s IH]; intros n; simpl; [discriminate|].
  destruct (ascii_eqb x c) eqn:E.
  - intros [= <-]. apply ascii_eqb_eq in E as ->. now exists [], s.
  - destruct (find_char c s) as [m|]; [|discriminate]. intros [= <-].
    destruct (IH m eq_refl) as (a & b & -> & <- & Hn).
    exists (x :: a), b. repeat split; auto. simpl. intros [->|H]; auto.
    now rewrite ascii_eqb_refl in E.
Qed.

Lemma find_char_none c s : find_char c s = None <-> ~ In c s.
Proof.
  induction s as [|x s IH]; simpl; [now split; auto|].
  destruct (ascii_eqb x c) eqn:E.
  - apply ascii_eqb_eq in E as ->. split; [discriminate | intros H; exfalso; auto].
  - apply ascii_eqb_neq in E. destruct (find_char c s).
    + split; [discriminate|]. intros H. exfalso. assert (~ In c s) by auto.
      apply IH in H0. discriminate.
    + split; auto. intros _ [->|H]; auto. now apply IH in H.
Qed.

Lemma rfind_char_none c s : rfind_char c s = None <-> ~ In c s.
Proof.
  induction s as [|x s IH]; simpl; [now split; auto|].
  destruct (rfind_char c s) as [n|] eqn:F.
  - split; [discriminate|]. intros H. exfalso.
    assert (Some n = None) by (apply IH; auto). discriminate.
  - destruct (ascii_eqb x c) eqn:E.
    + apply ascii_eqb_eq in E as ->. split; [discriminate | intros H; exfalso; auto].
    + apply ascii_eqb_neq in E. split; auto. intros _ [->|H]; auto. now apply IH in H.
Qed.

Lemma rfind_char_some c s n :
  rfind_char c s = Some n -> exists a b, s = a ++ c :: b /\ length a = n /\ ~ In c b.
Proof.
  revert n; induction s as [|x s IH]; intros n; simpl; [discriminate|].
  destruct (rfind_char c s) as [m|] eqn:F.
  - intros [= <-]. destruct (IH m eq_refl) as (a & b & -> & <- & Hn).
    now exists (x :: a), b.
  - destruct (ascii_eqb x c) eqn:E; [|discriminate]. intros [= <-].
    apply ascii_eqb_eq in E as ->. exists [], s. repeat split; auto.
    now apply rfind_char_none.
Qed.

Lemma rfind_char_intro c a b : ~ In c b -> rfind_char c (a ++ c :: b) = Some (length a).
Proof.
  intros Hb. induction a as [|x a IH]; simpl.
  - apply rfind_char_none in Hb. now rewrite Hb, ascii_eqb_refl.
  - now rewrite IH.
Qed.

Lemma find_char_intro c a b : ~ In c a -> find_char c (a ++ c :: b) = Some (length a).
Proof.
  intros Ha. induction a as [|x a IH]; simpl in *.
  - now rewrite ascii_eqb_refl.
  - destruct (ascii_eqb x c) eqn:E.
    + apply ascii_eqb_eq in E as ->. exfalso; auto.
    + rewrite IH; auto.
Qed.

Lemma firstn_app_exact {A} (a b : list A) : firstn (length a) (a ++ b) = a.
Proof. induction a; simpl; [reflexivity | now f_equal]. Qed.

Lemma skipn_app_exact {A} (a b : list A) : skipn (length a) (a ++ b) = b.
Proof. induction a; simpl; auto. Qed.

(** Subsequences (order-preserving embedding). *)
Inductive subseq {A} : list A -> list A -> Prop :=
| subseq_nil : forall l, subseq [] l
| subseq_keep : forall x k l, subseq k l -> subseq (x :: k) (x :: l)
| subseq_skip : forall x k l, subseq k l -> subseq k (x :: l).

Lemma subseq_refl {A} (l : list A) : subseq l l.
Proof. induction l; constructor; auto. Qed.

Lemma subseq_length {A} (k l : list A) : subseq k l -> length k <= length l.
Proof. induction 1; simpl; lia. Qed.

Lemma subseq_in {A} (k l : list A) x : subseq k l -> In x k -> In x l.
Proof. induction 1; simpl; intuition. Qed.

Lemma subseq_filter_length {A} (f : A -> bool) k l :
  subseq k l -> length (filter f k) <= length (filter f l).
Proof.
  induction 1; simpl; try lia.
  - destruct (f x); simpl; lia.
  - destruct (f x); simpl; lia.
Qed.

Lemma subseq_app_r {A} (k l m : list A) : subseq k l -> subseq k (l ++ m).
Proof. induction 1; simpl; constructor; auto. Qed.

Lemma subseq_snoc {A} (k l : list A) x : subseq k l -> subseq (k ++ [x]) (l ++ [x]).
Proof.
  induction 1 as [l|y k l H IH|y k l H IH]; simpl.
  - induction l; simpl; constructor; auto. constructor.
  - constructor; auto.
  - now constructor.
Qed.

Lemma filter_subseq {A} (f : A -> bool) l : subseq (filter f l) l.
Proof. induction l as [|x l IH]; simpl; [constructor|]. destruct (f x); constructor; auto. Qed.
