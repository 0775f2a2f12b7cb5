(** * An XML parser, complete for the grammar; hence the grammar is unambiguous *)
From Verif Require Import Base BaseFacts SpecXML.
Local Arguments lit : simpl never.

Definition isWhite (c : ascii) : bool := existsb (ascii_eqb c) [" "; "009"; "010"; "013"]%char.
Fixpoint skipWhite (s : str) : str := match s with c :: s' => if isWhite c then skipWhite s' else s | [] => [] end.
Fixpoint span (f : ascii -> bool) (s : str) : str * str :=
  match s with c :: s' => if f c then let '(a, b) := span f s' in (c :: a, b) else ([], s) | [] => ([], []) end.
Definition starts (c : ascii) (s : str) : option str :=
  match s with x :: r => if ascii_eqb x c then Some r else None | [] => None end.
Fixpoint strip (p s : str) : option str :=
  match p, s with [], _ => Some s | x :: p', y :: s' => if ascii_eqb x y then strip p' s' else None | _ :: _, [] => None end.
(** after &, with the characters still to skip *)
Definition pentity (s : str) : option (ascii * nat) :=
  if strip $"lt;" s then Some ("<"%char, 3) else if strip $"gt;" s then Some (">"%char, 3)
  else if strip $"amp;" s then Some ("&"%char, 4) else if strip $"quot;" s then Some (""""%char, 5)
  else if strip $"apos;" s then Some ("'"%char, 5) else None.
Fixpoint pval (q : ascii) (skip : nat) (s : str) : option (str * str) :=
  match skip, s with
  | S k, _ :: s1 => pval q k s1
  | O, c :: s1 =>
      if ascii_eqb c q then Some ([], s1)
      else if ascii_eqb c "<"%char then None
      else if ascii_eqb c "&"%char then
        match pentity s1 with
        | Some (x, k) => match pval q k s1 with Some (v, r) => Some (x :: v, r) | None => None end
        | None => None
        end
      else if 32 <=? code c then match pval q 0 s1 with Some (v, r) => Some (c :: v, r) | None => None end
      else if isWhite c then match pval q 0 s1 with Some (v, r) => Some (" "%char :: v, r) | None => None end
      else None
  | _, [] => None
  end.
Fixpoint ptext (skip : nat) (s : str) : option (str * str) :=
  match skip, s with
  | S k, _ :: s1 => ptext k s1
  | O, c :: s1 =>
      if ascii_eqb c "<"%char then Some ([], s)
      else if ascii_eqb c "&"%char then
        match pentity s1 with
        | Some (x, k) => match ptext k s1 with Some (v, r) => Some (x :: v, r) | None => None end
        | None => None
        end
      else match ptext 0 s1 with Some (v, r) => Some (c :: v, r) | None => None end
  | _, [] => None
  end.
Fixpoint pattrs (f : nat) (s : str) : option (list (str * str) * str) :=
  match f with
  | O => None
  | S f =>
      match skipWhite s with
      | c :: _ =>
          if name_start c then
            let '(n, s1) := span name_char (skipWhite s) in
            match starts "="%char (skipWhite s1) with
            | Some s2 =>
                match skipWhite s2 with
                | q :: s3 =>
                    if ascii_eqb q """"%char || ascii_eqb q "'"%char then
                      match pval q 0 s3 with
                      | Some (v, s4) => match pattrs f s4 with Some (l, r) => Some ((n, v) :: l, r) | None => None end
                      | None => None
                      end
                    else None
                | [] => None
                end
            | None => None
            end
          else Some ([], skipWhite s)
      | [] => Some ([], [])
      end
  end.
Fixpoint pelement (f : nat) (s : str) : option (xml * str) :=
  match f with
  | O => None
  | S f =>
      match starts "<"%char s with
      | Some s1 =>
          let '(n, s2) := span name_char s1 in
          match pattrs f s2 with
          | Some (l, s3) =>
              match starts ">"%char s3 with
              | Some s4 =>
                  match pcontent f s4 with
                  | Some (c, s5) =>
                      match strip ("<"%char :: "/"%char :: n) s5 with
                      | Some s6 => match starts ">"%char (skipWhite s6) with Some r => Some (Element n l c, r) | None => None end
                      | None => None
                      end
                  | None => None
                  end
              | None => match strip ["/"; ">"]%char s3 with Some r => Some (Element n l [], r) | None => None end
              end
          | None => None
          end
      | None => None
      end
  end
with pcontent (f : nat) (s : str) : option (list xml * str) :=
  match f with
  | O => None
  | S f =>
      match strip ["<"; "/"]%char s with
      | Some _ => Some ([], s)
      | None =>
          match starts "<"%char s with
          | Some _ =>
              match pelement f s with
              | Some (e, r) => match pcontent f r with Some (l, t) => Some (e :: l, t) | None => None end
              | None => None
              end
          | None =>
              match ptext 0 s with
              | Some (x, r) => match pcontent f r with Some (l, t) => Some (Text x :: l, t) | None => None end
              | None => None
              end
          end
      end
  end.

(** ** Completeness *)
Lemma white_iff c : isWhite c = true <-> In c [" "; "009"; "010"; "013"]%char.
Proof.
  unfold isWhite. rewrite existsb_exists. split.
  - intros (x & H & E). apply Ascii.eqb_eq in E. now subst.
  - intros H. exists c. split; auto. apply Ascii.eqb_refl.
Qed.
Lemma skipWhite_app w c s : xwhite w -> isWhite c = false -> skipWhite (w ++ c :: s) = c :: s.
Proof.
  intros H N. induction H as [|x w Hx H IH]; cbn [app skipWhite]; [now rewrite N|]. apply white_iff in Hx. now rewrite Hx.
Qed.
Lemma skipWhite_all w : xwhite w -> skipWhite w = [].
Proof. induction 1 as [|x w Hx H IH]; cbn [skipWhite]; auto. apply white_iff in Hx. now rewrite Hx. Qed.
Lemma span_app f a s : Forall (fun c => f c = true) a -> (forall c r, s = c :: r -> f c = false) -> span f (a ++ s) = (a, s).
Proof.
  intros H N. induction H as [|x a Hx H IH]; cbn.
  - destruct s as [|c s]; [reflexivity|]. cbn. now rewrite (N c s eq_refl).
  - rewrite Hx, IH. reflexivity.
Qed.
Lemma strip_app p s : strip p (p ++ s) = Some s.
Proof. induction p as [|c p IH]; cbn; auto. unfold ascii_eqb. now rewrite Ascii.eqb_refl. Qed.
Lemma starts_same c r : starts c (c :: r) = Some r.
Proof. unfold starts, ascii_eqb. now rewrite Ascii.eqb_refl. Qed.
Lemma pentity_complete c e t : In (c, e) entities -> pentity (e ++ ";"%char :: t) = Some (c, S (length e)).
Proof. intros H. cbn in H. destruct H as [[= <- <-]|[[= <- <-]|[[= <- <-]|[[= <- <-]|[[= <- <-]|[]]]]]]; reflexivity. Qed.
Lemma pval_skip q : forall a s, pval q (length a) (a ++ s) = pval q 0 s.
Proof. induction a as [|c a IH]; intros s; [reflexivity|]. cbn. apply IH. Qed.
Lemma ptext_skip : forall a s, ptext (length a) (a ++ s) = ptext 0 s.
Proof. induction a as [|c a IH]; intros s; [reflexivity|]. cbn. apply IH. Qed.
Lemma entity_skip e t : S (length e) = length (e ++ [";"%char]) /\ e ++ ";"%char :: t = (e ++ [";"%char]) ++ t.
Proof. rewrite app_length, <- app_assoc. cbn. split; auto. lia. Qed.
Lemma pval_complete q v t : In q [""""; "'"]%char -> xvalue q v t -> forall r, pval q 0 (t ++ q :: r) = Some (v, r).
Proof.
  intros Hq. assert (QS : ascii_eqb "&" q = false /\ ascii_eqb q "<"%char = false) by (destruct Hq as [<-|[<-|[]]]; auto).
  destruct QS as [QA _].
  induction 1 as [|c s t L N1 N2 N3 H IH|c s t Hc H IH|c e s t He H IH]; intros r.
  - cbn. unfold ascii_eqb. now rewrite Ascii.eqb_refl.
  - cbn [app pval]. unfold ascii_eqb. rewrite (proj2 (Ascii.eqb_neq _ _) N1), (proj2 (Ascii.eqb_neq _ _) N2), (proj2 (Ascii.eqb_neq _ _) N3), IH.
    apply Nat.leb_le in L. now rewrite L.
  - cbn [app pval]. assert (X : ascii_eqb c q = false). { unfold ascii_eqb. apply Ascii.eqb_neq. intros ->. destruct Hq as [<-|[<-|[]]]; cbn in Hc; intuition discriminate. }
    rewrite X. destruct Hc as [<-|[<-|[<-|[]]]]; cbn -[pval]; now rewrite IH.
  - cbn [app pval]. rewrite QA. change (ascii_eqb "&" "<") with false. change (ascii_eqb "&" "&") with true. cbv iota.
    rewrite <- app_assoc. cbn [app]. rewrite (pentity_complete c e _ He).
    destruct (entity_skip e (t ++ q :: r)) as [-> ->]. rewrite pval_skip. now rewrite IH.
Qed.
Lemma ptext_complete v t : xtext v t -> forall r, ptext 0 (t ++ "<"%char :: r) = Some (v, "<"%char :: r).
Proof.
  induction 1 as [|c s t L N1 N2 N3 H IH|c e s t He H IH]; intros r.
  - reflexivity.
  - cbn [app ptext]. unfold ascii_eqb. rewrite (proj2 (Ascii.eqb_neq _ _) N1), (proj2 (Ascii.eqb_neq _ _) N3), IH. reflexivity.
  - cbn [app ptext]. change (ascii_eqb "&" "<") with false. change (ascii_eqb "&" "&") with true. cbv iota.
    rewrite <- app_assoc. cbn [app]. rewrite (pentity_complete c e _ He).
    destruct (entity_skip e (t ++ "<"%char :: r)) as [-> ->]. rewrite ptext_skip. now rewrite IH.
Qed.
Definition enough {A} (p : nat -> option A) (a : A) : Prop := exists f0, forall f, f0 <= f -> p f = Some a.
Lemma white_not_name c : isWhite c = true -> name_char c = false.
Proof. intros H. apply white_iff in H. destruct H as [<-|[<-|[<-|[<-|[]]]]]; reflexivity. Qed.
Lemma start_not_white c : name_start c = true -> isWhite c = false.
Proof.
  intros H. destruct (isWhite c) eqn:W; auto. apply white_not_name in W. unfold name_char in W. rewrite H in W. discriminate.
Qed.
(** What follows a name. *)
Definition after_name (s : str) : Prop := forall c r, s = c :: r -> name_char c = false.
Lemma after_white w s : xwhite w -> after_name s -> after_name (w ++ s).
Proof.
  intros H A. destruct H as [|x w Hx H]; auto. intros c r E. cbn in E. injection E as <- _. apply white_not_name, white_iff. exact Hx.
Qed.
Lemma span_name n s : xname n -> after_name s -> span name_char (n ++ s) = (n, s).
Proof.
  intros (c & r & -> & S & F) A. apply span_app; auto. constructor; auto. unfold name_char. now rewrite S.
Qed.
Lemma attrs_after l ta w c r : xattributes l ta -> xwhite w -> name_char c = false -> after_name (ta ++ w ++ c :: r).
Proof.
  intros H W N. destruct H as [|w0 n w1 w2 q v t l r' W0 NE].
  - cbn. apply after_white; auto. intros x y [= <- _]. auto.
  - destruct W0 as [|x w0 Hx W0]; [congruence|]. cbn. intros y z E. injection E as <- _. apply white_not_name, white_iff. exact Hx.
Qed.
Lemma pattrs_complete l ta : xattributes l ta -> forall w c r, xwhite w -> name_start c = false -> isWhite c = false ->
  enough (fun f => pattrs f (ta ++ w ++ c :: r)) (l, c :: r).
Proof.
  induction 1 as [|w0 n w1 w2 q v t l r' W0 NE N W1 W2 Q V A IH]; intros w c r W NS NW.
  - exists 1. intros [|f] H; [lia|]. cbn [pattrs app]. rewrite skipWhite_app by auto. now rewrite NS.
  - destruct (IH w c r W NS NW) as (f0 & K). exists (S f0). intros [|f] H; [lia|]. cbn [pattrs]. rewrite <- ?app_assoc.
    pose proof N as (d & n' & En & Sd & _).
    assert (SW : forall X, skipWhite (w0 ++ n ++ X) = n ++ X).
    { intros X. rewrite En. cbn [app]. apply skipWhite_app; auto using start_not_white. }
    rewrite !SW. match goal with |- match ?x with _ => _ end = _ => destruct x as [|d' y] eqn:Ex; rewrite En in Ex; [discriminate|cbn [app] in Ex; injection Ex as <- <-] end.
    rewrite Sd. rewrite app_comm_cons, <- En. rewrite span_name; [|exact N|].
    2:{ cbn [app]. apply after_white; auto. intros x y [= <- _]. reflexivity. }
    cbn [app]. rewrite skipWhite_app by auto. rewrite starts_same. rewrite <- ?app_assoc. cbn [app].
    rewrite skipWhite_app by (auto; destruct Q as [<-|[<-|[]]]; reflexivity).
    replace (ascii_eqb q """" || ascii_eqb q "'") with true by (destruct Q as [<-|[<-|[]]]; reflexivity).
    rewrite <- ?app_assoc. cbn [app]. rewrite (pval_complete q v t Q V). rewrite K by lia. reflexivity.
Qed.
Scheme xelement_mut := Minimality for xelement Sort Prop with xcontent_mut := Minimality for xcontent Sort Prop.
Combined Scheme xml_mut from xelement_mut, xcontent_mut.
Lemma element_head e t : xelement e t -> exists c r, t = "<"%char :: c :: r /\ name_start c = true.
Proof.
  intros H. inversion H as [n at_ ta w c tc w' N|n at_ ta w N]; subst; destruct N as (d & n' & -> & S & _); cbn; eauto.
Qed.
Lemma text_head s t : xtext s t -> s <> [] -> exists c r, t = c :: r /\ c <> "<"%char.
Proof. inversion 1; subst; [congruence| |]; intros _; do 2 eexists; (split; [reflexivity|]); auto. discriminate. Qed.
Lemma strip_close n s : strip ("<"%char :: "/"%char :: n) ("<"%char :: "/"%char :: n ++ s) = Some s.
Proof. exact (strip_app ("<"%char :: "/"%char :: n) s). Qed.
Lemma xml_complete :
  (forall e t, xelement e t -> forall r, enough (fun f => pelement f (t ++ r)) (e, r))
  /\ (forall l t, xcontent l t -> (forall r, enough (fun f => pcontent f (t ++ "<"%char :: "/"%char :: r)) (l, "<"%char :: "/"%char :: r))
        /\ (l = [] /\ t = [] \/ (exists x l', l = x :: l' /\ (is_text x \/ exists r, t = "<"%char :: r)))).
Proof.
  apply xml_mut.
  - intros n at_ ta w c tc w' N A _ W C [IH _] W' r.
    destruct (pattrs_complete at_ ta A w ">"%char (tc ++ "<"%char :: "/"%char :: n ++ w' ++ ">"%char :: r)) as (f1 & K1); auto.
    destruct (IH (n ++ w' ++ ">"%char :: r)) as (f2 & K2). exists (S (f1 + f2)). intros [|f] H; [lia|].
    cbn [pelement]. cbn [app]. rewrite starts_same. rewrite <- ?app_assoc. cbn [app]. rewrite <- ?app_assoc. cbn [app]. rewrite <- ?app_assoc. cbn [app].
    rewrite span_name; [|exact N|eapply attrs_after; eauto]. rewrite K1 by lia. rewrite starts_same. rewrite K2 by lia.
    rewrite strip_close. rewrite skipWhite_app by auto. now rewrite starts_same.
  - intros n at_ ta w N A _ W r.
    destruct (pattrs_complete at_ ta A w "/"%char (">"%char :: r)) as (f1 & K1); auto. exists (S f1). intros [|f] H; [lia|].
    cbn [pelement]. cbn [app]. rewrite starts_same. rewrite <- ?app_assoc. cbn [app].
    rewrite span_name; [|exact N|eapply attrs_after; eauto]. rewrite K1 by lia. reflexivity.
  - split; [|left; auto]. intros r. exists 1. intros [|f] H; [lia|]. reflexivity.
  - intros s t l u NE X C [IH HD] NT. split.
    + intros r. destruct (IH r) as (f0 & K). exists (S f0). intros [|f] H; [lia|]. cbn [pcontent].
      destruct (text_head s t X NE) as (c & t' & E & NC).
      assert (Y : ascii_eqb "<" c = false /\ ascii_eqb c "<" = false).
      { unfold ascii_eqb. split; apply Ascii.eqb_neq; congruence. }
      destruct Y as [Y1 Y2]. replace (strip ["<"; "/"]%char ((t ++ u) ++ "<"%char :: "/"%char :: r)) with (@None str) by (rewrite E; cbn [app strip]; now rewrite Y1).
      replace (starts "<"%char ((t ++ u) ++ "<"%char :: "/"%char :: r)) with (@None str) by (rewrite E; cbn [app starts]; now rewrite Y2).
      rewrite <- app_assoc. assert (Z : exists z, u ++ "<"%char :: "/"%char :: r = "<"%char :: z).
      { destruct HD as [[-> ->]|(x & l' & -> & [T|(z & ->)])]; [cbn; eauto|exfalso; eapply NT; eauto|cbn; eauto]. }
      destruct Z as (z & Z). rewrite Z. rewrite (ptext_complete s t X). rewrite <- Z, K by lia. reflexivity.
    + right. do 2 eexists. split; [reflexivity|]. left. eexists. reflexivity.
  - intros e t l u E IHe C [IH HD]. split.
    + intros r. destruct (IHe (u ++ "<"%char :: "/"%char :: r)) as (f1 & K1). destruct (IH r) as (f2 & K2). exists (S (f1 + f2)). intros [|f] H; [lia|]. cbn [pcontent].
      rewrite <- app_assoc. destruct (element_head e t E) as (c & t' & Et & S).
      replace (strip ["<"; "/"]%char (t ++ u ++ "<"%char :: "/"%char :: r)) with (@None str).
      2:{ rewrite Et. cbn [app strip]. change (ascii_eqb "<" "<") with true. cbv iota. replace (ascii_eqb "/" c) with false; auto. symmetry. unfold ascii_eqb. apply Ascii.eqb_neq. intros <-. discriminate. }
      replace (starts "<"%char (t ++ u ++ "<"%char :: "/"%char :: r)) with (Some ((c :: t') ++ u ++ "<"%char :: "/"%char :: r)) by (rewrite Et; reflexivity).
      rewrite K1 by lia. rewrite K2 by lia. reflexivity.
    + right. do 2 eexists. split; [reflexivity|]. right. destruct (element_head e t E) as (c & t' & -> & _). eexists. reflexivity.
Qed.
Definition xmlHead : str :=
  $"<?xml version=" ++ [""""%char] ++ $"1.0" ++ [""""%char] ++ $" encoding=" ++ [""""%char] ++ $"UTF-8" ++ [""""%char].
Definition pdocument (f : nat) (s : str) : option xml :=
  match strip xmlHead s with
  | Some s1 =>
      match strip $"?>" (skipWhite s1) with
      | Some s2 => match pelement f (skipWhite s2) with
                   | Some (e, r) => match skipWhite r with [] => Some e | _ => None end
                   | None => None end
      | None => None
      end
  | None => None
  end.
Lemma document_complete e s : xml_text e s -> enough (fun f => pdocument f s) e.
Proof.
  intros (w & w1 & t & w2 & W & W1 & W2 & E & ->). destruct (proj1 xml_complete e t E w2) as (f0 & K). exists f0. intros f H. unfold pdocument.
  match goal with |- match strip _ ?x with _ => _ end = _ => replace x with (xmlHead ++ w ++ $"?>" ++ w1 ++ t ++ w2) end.
  2:{ unfold xmlHead. rewrite <- !app_assoc. reflexivity. }
  rewrite strip_app. change $"?>" with ["?"; ">"]%char. cbn [app]. rewrite skipWhite_app by auto.
  change (strip ["?"; ">"]%char ("?"%char :: ">"%char :: w1 ++ t ++ w2)) with (Some (w1 ++ t ++ w2)). cbv iota beta.
  destruct (element_head e t E) as (c & t' & Et & _). rewrite Et at 1. cbn [app]. rewrite skipWhite_app by auto.
  rewrite !app_comm_cons, <- Et, K by lia. now rewrite skipWhite_all.
Qed.
Lemma xml_unique e e' s : xml_text e s -> xml_text e' s -> e = e'.
Proof.
  intros H H'. apply document_complete in H as (f & K), H' as (f' & K'). specialize (K (f + f') ltac:(lia)). specialize (K' (f + f') ltac:(lia)). congruence.
Qed.
