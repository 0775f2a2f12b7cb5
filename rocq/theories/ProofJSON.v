(** * A JSON parser, complete for the grammar; hence the grammar is unambiguous *)
From Verif Require Import Base BaseFacts SpecJSON.
Local Arguments lit : simpl never.

Definition isWhite (c : ascii) : bool := existsb (ascii_eqb c) [" "; "009"; "010"; "013"]%char.
Fixpoint skipWhite (s : str) : str := match s with c :: s' => if isWhite c then skipWhite s' else s | [] => [] end.
Definition isHex (c : ascii) : bool := isdigit c || existsb (ascii_eqb c) (list_ascii_of_string "abcdefABCDEF").
Definition inNumber (c : ascii) : bool := isdigit c || existsb (ascii_eqb c) ["-"; "+"; "."; "e"; "E"]%char.
Fixpoint span (f : ascii -> bool) (s : str) : str * str :=
  match s with c :: s' => if f c then let '(a, b) := span f s' in (c :: a, b) else ([], s) | [] => ([], []) end.
(** after the opening quote *)
Fixpoint pchars (s : str) : option (list jchar * str) :=
  match s with
  | [] => None
  | c :: s1 =>
      if ascii_eqb c """"%char then Some ([], s1)
      else if ascii_eqb c "\"%char then
        match s1 with
        | e :: s2 =>
            let one r := match pchars s2 with Some (l, t) => Some (JByte r :: l, t) | None => None end in
            if ascii_eqb e """"%char then one """"%char else if ascii_eqb e "\"%char then one "\"%char
            else if ascii_eqb e "/"%char then one "/"%char else if ascii_eqb e "b"%char then one "008"%char
            else if ascii_eqb e "f"%char then one "012"%char else if ascii_eqb e "n"%char then one "010"%char
            else if ascii_eqb e "r"%char then one "013"%char else if ascii_eqb e "t"%char then one "009"%char
            else if ascii_eqb e "u"%char then
              match s2 with
              | a :: b :: c :: d :: s3 =>
                  if isHex a && isHex b && isHex c && isHex d
                  then match pchars s3 with Some (l, t) => Some (JUnit a b c d :: l, t) | None => None end else None
              | _ => None
              end
            else None
        | [] => None
        end
      else if 32 <=? code c then match pchars s1 with Some (l, t) => Some (JByte c :: l, t) | None => None end
      else None
  end.
Definition pkeyword (s : str) : option (json * str) :=
  match s with
  | "n" :: "u" :: "l" :: "l" :: r => Some (JNull, r)
  | "t" :: "r" :: "u" :: "e" :: r => Some (JTrue, r)
  | "f" :: "a" :: "l" :: "s" :: "e" :: r => Some (JFalse, r)
  | _ => None
  end%char.
Definition starts (c : ascii) (s : str) : option str :=
  match s with x :: r => if ascii_eqb x c then Some r else None | [] => None end.
Fixpoint pvalue (f : nat) (s : str) : option (json * str) :=
  match f, s with
  | S f, c :: s1 =>
      if ascii_eqb c """"%char then match pchars s1 with Some (l, r) => Some (JString l, r) | None => None end
      else if ascii_eqb c "["%char then
        match starts "]"%char (skipWhite s1) with
        | Some r => Some (JArray [], r)
        | None => match pelements f s1 with
                  | Some (l, t) => match starts "]"%char t with Some r => Some (JArray l, r) | None => None end
                  | None => None end
        end
      else if ascii_eqb c "{"%char then
        match starts "}"%char (skipWhite s1) with
        | Some r => Some (JObject [], r)
        | None => match pmembers f s1 with
                  | Some (l, t) => match starts "}"%char t with Some r => Some (JObject l, r) | None => None end
                  | None => None end
        end
      else if inNumber c then let '(a, r) := span inNumber s in Some (JNumber a, r)
      else pkeyword s
  | _, _ => None
  end
with pelements (f : nat) (s : str) : option (list json * str) :=
  match f with
  | S f =>
      match pvalue f (skipWhite s) with
      | Some (j, r) =>
          match starts ","%char (skipWhite r) with
          | Some r' => match pelements f r' with Some (l, t) => Some (j :: l, t) | None => None end
          | None => Some ([j], skipWhite r)
          end
      | None => None
      end
  | O => None
  end
with pmembers (f : nat) (s : str) : option (list (list jchar * json) * str) :=
  match f with
  | S f =>
      match starts """"%char (skipWhite s) with
      | Some s1 =>
          match pchars s1 with
          | Some (k, s2) =>
              match starts ":"%char (skipWhite s2) with
              | Some s3 =>
                  match pvalue f (skipWhite s3) with
                  | Some (j, r) =>
                      match starts ","%char (skipWhite r) with
                      | Some r' => match pmembers f r' with Some (l, t) => Some ((k, j) :: l, t) | None => None end
                      | None => Some ([(k, j)], skipWhite r)
                      end
                  | None => None
                  end
              | None => None
              end
          | None => None
          end
      | None => None
      end
  | O => None
  end.

(** ** Completeness *)
Lemma white_iff c : isWhite c = true <-> In c [" "; "009"; "010"; "013"]%char.
Proof.
  unfold isWhite. rewrite existsb_exists. split.
  - intros (x & H & E). apply Ascii.eqb_eq in E. now subst.
  - intros H. exists c. split; auto. apply Ascii.eqb_refl.
Qed.
Lemma skipWhite_app w c s : white w -> isWhite c = false -> skipWhite (w ++ c :: s) = c :: s.
Proof.
  intros H N. induction H as [|x w Hx H IH]; cbn [app skipWhite]; [now rewrite N|]. apply white_iff in Hx. now rewrite Hx.
Qed.
Lemma skipWhite_all w : white w -> skipWhite w = [].
Proof. induction 1 as [|x w Hx H IH]; cbn [skipWhite]; auto. apply white_iff in Hx. now rewrite Hx. Qed.
Lemma hex_iff c : isHex c = true <-> hex c.
Proof.
  unfold isHex, hex. rewrite orb_true_iff, existsb_exists. split; (intros [H|H]; [auto|right]).
  - destruct H as (x & H & E). apply Ascii.eqb_eq in E. now subst.
  - exists c. split; auto. apply Ascii.eqb_refl.
Qed.
Lemma pchars_complete l s : jcharacters l s -> forall r, pchars (s ++ """"%char :: r) = Some (l, r).
Proof.
  induction 1 as [|c t l s C H IH]; intros r; [reflexivity|]. rewrite <- app_assoc.
  inversion C as [x N1 N2 L| | | | | | | | |a b x d Ha Hb Hx Hd]; subst; cbn [app pchars]; try (rewrite IH; reflexivity).
  - unfold ascii_eqb. rewrite (proj2 (Ascii.eqb_neq _ _) N1), (proj2 (Ascii.eqb_neq _ _) N2), IH. apply Nat.leb_le in L. now rewrite L.
  - change (ascii_eqb "\" """") with false. change (ascii_eqb "\" "\") with true. cbv iota.
    repeat match goal with |- context [ascii_eqb "u" ?x] => let b := eval vm_compute in (ascii_eqb "u" x) in change (ascii_eqb "u" x) with b; cbv iota end.
    apply hex_iff in Ha, Hb, Hx, Hd. rewrite Ha, Hb, Hx, Hd, IH. reflexivity.
Qed.
Lemma span_app f a s : Forall (fun c => f c = true) a -> (forall c r, s = c :: r -> f c = false) -> span f (a ++ s) = (a, s).
Proof.
  intros H N. induction H as [|x a Hx H IH]; cbn.
  - destruct s as [|c s]; [reflexivity|]. cbn. now rewrite (N c s eq_refl).
  - rewrite Hx, IH. reflexivity.
Qed.
Lemma digits_in s : Forall (fun c => isdigit c = true) s -> Forall (fun c => inNumber c = true) s.
Proof. intros H. eapply Forall_impl; [|exact H]. intros c K. cbn beta in K. unfold inNumber. now rewrite K. Qed.
Lemma number_in s : jnumber s -> Forall (fun c => inNumber c = true) s /\ exists c r, s = c :: r /\ (isdigit c = true \/ c = "-"%char).
Proof.
  intros H. inversion H as [sign int frac exp S I F E]; subst.
  assert (HI : Forall (fun c => inNumber c = true) int /\ exists c r, int = c :: r /\ isdigit c = true).
  { destruct I as [->|(d & ds & -> & [_ D] & _)].
    - split; [repeat constructor|]. exists "0"%char, []. auto.
    - split; [now apply digits_in|]. exists d, ds. split; auto. now inversion D. }
  destruct HI as (HI & c & r & E1 & D). split.
  - apply Forall_app; split; [|apply Forall_app; split; [exact HI|apply Forall_app; split]].
    + destruct S as [->| ->]; repeat constructor.
    + destruct F as [->|(f & -> & _ & K)]; [constructor|]. constructor; [reflexivity|now apply digits_in].
    + destruct E as [->|(e & s & x & -> & He & Hs & _ & K)]; [constructor|]. constructor.
      * destruct He as [<-|[<-|[]]]; reflexivity.
      * apply Forall_app. split; [destruct Hs as [->|[->| ->]]; repeat constructor|now apply digits_in].
  - destruct S as [->| ->].
    + rewrite E1. cbn. eauto.
    + exists "-"%char. eexists. split; [reflexivity|auto].
Qed.
Lemma value_head j t : jvalue j t -> exists c t', t = c :: t' /\ isWhite c = false /\ c <> "]"%char /\ c <> "}"%char.
Proof.
  inversion 1 as [| | |s N|l s S| | | | ]; subst; cbv [lit list_ascii_of_string]; try (do 2 eexists; split; [reflexivity|]; repeat split; discriminate).
  - apply number_in in N as (_ & c & r & -> & D). exists c, r. split; auto.
    assert (X : isdigit c = true -> isWhite c = false /\ c <> "]"%char /\ c <> "}"%char).
    { intros K. repeat split; try (intros ->; discriminate). destruct (isWhite c) eqn:W; auto.
      apply white_iff in W. cbn in W. exfalso. destruct W as [<-|[<-|[<-|[<-|[]]]]]; discriminate. }
    destruct D as [D| ->]; auto. repeat split; auto; discriminate.
  - destruct S as (x & _ & ->). do 2 eexists; split; [reflexivity|]. repeat split; discriminate.
Qed.
Definition stop (rest : str) : Prop := forall c r, rest = c :: r -> inNumber c = false.
Lemma stop_white w r : white w -> stop r -> stop (w ++ r).
Proof.
  intros H S. destruct H as [|x w Hx H]; auto. intros c r' E. cbn in E. injection E as <- _.
  destruct Hx as [<-|[<-|[<-|[<-|[]]]]]; reflexivity.
Qed.
Lemma stop_cons c r : inNumber c = false -> stop (c :: r).
Proof. intros H x y [= <- _]. exact H. Qed.
Scheme jvalue_mut := Minimality for jvalue Sort Prop
  with jelements_mut := Minimality for jelements Sort Prop
  with jmembers_mut := Minimality for jmembers Sort Prop.
Combined Scheme json_mut from jvalue_mut, jelements_mut, jmembers_mut.
Definition enough {A} (p : nat -> option A) (a : A) : Prop := exists f0, forall f, f0 <= f -> p f = Some a.
Lemma starts_same c r : starts c (c :: r) = Some r.
Proof. unfold starts, ascii_eqb. now rewrite Ascii.eqb_refl. Qed.
Lemma starts_other c d r : d <> c -> starts c (d :: r) = None.
Proof. intros H. unfold starts, ascii_eqb. apply Ascii.eqb_neq in H. now rewrite H. Qed.
Lemma elements_head l s : jelements l s -> forall r, starts "]"%char (skipWhite (s ++ r)) = None.
Proof.
  intros H r. inversion H as [j w t w' W V W'|j w t w' l' s' W V W' E]; subst; destruct (value_head _ _ V) as (c & t' & -> & X & N & _);
    rewrite <- app_assoc; cbn [app]; rewrite skipWhite_app by auto; now apply starts_other.
Qed.
Lemma members_head l s : jmembers l s -> forall r, starts "}"%char (skipWhite (s ++ r)) = None.
Proof.
  intros H r. inversion H as [k kt j t w1 w2 w3 w4 W1 K|k kt j t w1 w2 w3 w4 l' s' W1 K]; subst; destruct K as (x & _ & ->);
    rewrite <- app_assoc; cbn [app]; rewrite skipWhite_app by auto; reflexivity.
Qed.
Lemma json_complete :
  (forall j s, jvalue j s -> forall rest, stop rest -> enough (fun f => pvalue f (s ++ rest)) (j, rest))
  /\ (forall l s, jelements l s -> forall r, enough (fun f => pelements f (s ++ "]"%char :: r)) (l, "]"%char :: r))
  /\ (forall l s, jmembers l s -> forall r, enough (fun f => pmembers f (s ++ "}"%char :: r)) (l, "}"%char :: r)).
Proof.
  apply json_mut.
  - intros rest _. exists 1. intros [|f] H; [lia|reflexivity].
  - intros rest _. exists 1. intros [|f] H; [lia|reflexivity].
  - intros rest _. exists 1. intros [|f] H; [lia|reflexivity].
  - intros s N rest S. exists 1. intros [|f] H; [lia|]. pose proof (number_in s N) as (F & c & r & -> & D). cbn [app pvalue].
    assert (X : ascii_eqb c """"%char = false /\ ascii_eqb c "["%char = false /\ ascii_eqb c "{"%char = false).
    { unfold ascii_eqb. repeat split; apply Ascii.eqb_neq; intros ->; destruct D; discriminate. }
    destruct X as (-> & -> & ->). assert (K : inNumber c = true) by now inversion F. rewrite K.
    rewrite (app_comm_cons r rest c). now rewrite (span_app inNumber (c :: r) rest F S).
  - intros l t (s & C & ->) rest _. exists 1. intros [|f] H; [lia|]. cbn [app pvalue]. change (ascii_eqb """" """") with true. cbv iota.
    rewrite <- app_assoc. cbn [app]. now rewrite (pchars_complete l s C).
  - intros w W rest _. exists 1. intros [|f] H; [lia|]. cbn [app pvalue]. change (ascii_eqb "[" """") with false. change (ascii_eqb "[" "[") with true. cbv iota.
    rewrite <- app_assoc. cbn [app]. rewrite skipWhite_app by auto. now rewrite starts_same.
  - intros l t E IH rest _. destruct (IH rest) as (f0 & K). exists (S f0). intros [|f] H; [lia|]. cbn [app pvalue].
    change (ascii_eqb "[" """") with false. change (ascii_eqb "[" "[") with true. cbv iota.
    rewrite <- app_assoc. rewrite (elements_head l t E). cbn [app]. rewrite K by lia. now rewrite starts_same.
  - intros w W rest _. exists 1. intros [|f] H; [lia|]. cbn [app pvalue]. change (ascii_eqb "{" """") with false. change (ascii_eqb "{" "[") with false.
    change (ascii_eqb "{" "{") with true. cbv iota.
    rewrite <- app_assoc. cbn [app]. rewrite skipWhite_app by auto. now rewrite starts_same.
  - intros l t E IH rest _. destruct (IH rest) as (f0 & K). exists (S f0). intros [|f] H; [lia|]. cbn [app pvalue].
    change (ascii_eqb "{" """") with false. change (ascii_eqb "{" "[") with false. change (ascii_eqb "{" "{") with true. cbv iota.
    rewrite <- app_assoc. rewrite (members_head l t E). cbn [app]. rewrite K by lia. now rewrite starts_same.
  - intros j w t w' W V IH W' r. destruct (IH (w' ++ "]"%char :: r)) as (f0 & K); [apply stop_white; auto; now apply stop_cons|].
    exists (S f0). intros [|f] H; [lia|]. cbn [pelements]. rewrite <- ?app_assoc.
    destruct (value_head _ _ V) as (c & t' & E & X & _). rewrite E at 1. cbn [app]. rewrite skipWhite_app by auto.
    rewrite app_comm_cons, <- E, K by lia. rewrite skipWhite_app by auto. reflexivity.
  - intros j w t w' l s W V IH W' E IHE r. destruct (IH (w' ++ ","%char :: s ++ "]"%char :: r)) as (f0 & K); [apply stop_white; auto; now apply stop_cons|].
    destruct (IHE r) as (f1 & K1). exists (S (f0 + f1)). intros [|f] H; [lia|]. cbn [pelements]. rewrite <- ?app_assoc. cbn [app].
    destruct (value_head _ _ V) as (c & t' & E' & X & _). rewrite E' at 1. cbn [app]. rewrite skipWhite_app by auto.
    rewrite app_comm_cons, <- E', K by lia. rewrite skipWhite_app by auto. rewrite starts_same, K1 by lia. reflexivity.
  - intros k kt j t w1 w2 w3 w4 W1 (x & C & ->) W2 W3 V IH W4 r.
    destruct (IH (w4 ++ "}"%char :: r)) as (f0 & K); [apply stop_white; auto; now apply stop_cons|].
    exists (S f0). intros [|f] H; [lia|]. cbn [pmembers]. rewrite <- ?app_assoc. cbn [app]. rewrite skipWhite_app by auto. rewrite starts_same.
    rewrite <- ?app_assoc. cbn [app]. rewrite (pchars_complete k x C). rewrite skipWhite_app by auto. rewrite starts_same. rewrite <- ?app_assoc.
    destruct (value_head _ _ V) as (c & t' & E' & X & _). rewrite E' at 1. cbn [app]. rewrite skipWhite_app by auto.
    rewrite app_comm_cons, <- E', K by lia. rewrite skipWhite_app by auto. reflexivity.
  - intros k kt j t w1 w2 w3 w4 l s W1 (x & C & ->) W2 W3 V IH W4 E IHE r.
    destruct (IH (w4 ++ ","%char :: s ++ "}"%char :: r)) as (f0 & K); [apply stop_white; auto; now apply stop_cons|].
    destruct (IHE r) as (f1 & K1). exists (S (f0 + f1)). intros [|f] H; [lia|]. cbn [pmembers]. rewrite <- ?app_assoc. cbn [app]. rewrite skipWhite_app by auto. rewrite starts_same.
    rewrite <- ?app_assoc. cbn [app]. rewrite (pchars_complete k x C). rewrite skipWhite_app by auto. rewrite starts_same. rewrite <- ?app_assoc. cbn [app].
    destruct (value_head _ _ V) as (c & t' & E' & X & _). rewrite E' at 1. cbn [app]. rewrite skipWhite_app by auto.
    rewrite app_comm_cons, <- E', K by lia. rewrite skipWhite_app by auto. rewrite starts_same, K1 by lia. reflexivity.
Qed.
Definition pdocument (f : nat) (s : str) : option json :=
  match pvalue f (skipWhite s) with
  | Some (j, r) => match skipWhite r with [] => Some j | _ => None end
  | None => None
  end.
Lemma document_complete j s : json_text j s -> enough (fun f => pdocument f s) j.
Proof.
  intros (w & t & w' & -> & W & V & W'). destruct (proj1 json_complete j t V w') as (f0 & K).
  { rewrite <- (app_nil_r w'). apply stop_white; auto. intros c r. discriminate. }
  exists f0. intros f H. unfold pdocument. destruct (value_head _ _ V) as (c & t' & E & X & _). rewrite E at 1. cbn [app].
  rewrite skipWhite_app by auto. rewrite app_comm_cons, <- E, K by lia. now rewrite skipWhite_all.
Qed.
Lemma json_unique j j' s : json_text j s -> json_text j' s -> j = j'.
Proof.
  intros H H'. apply document_complete in H as (f & K), H' as (f' & K'). specialize (K (f + f') ltac:(lia)). specialize (K' (f + f') ltac:(lia)). congruence.
Qed.
