(** * XML documents, independently of OCLint: elements, attributes, text, the five named
      entities.  Comments, CDATA sections, processing instructions, document type declarations,
      numeric references and a bare > in text are left out. *)
From Verif Require Import Base.

Inductive xml := Element (name : str) (attributes : list (str * str)) (content : list xml) | Text (s : str).

Definition xwhite (s : str) : Prop := Forall (fun c => In c [" "; "009"; "010"; "013"]%char) s.
Definition name_start (c : ascii) : bool := isalpha c || existsb (ascii_eqb c) ["_"; ":"]%char.
Definition name_char (c : ascii) : bool := name_start c || isdigit c || existsb (ascii_eqb c) ["-"; "."]%char.
Definition xname (n : str) : Prop := exists c r, n = c :: r /\ name_start c = true /\ Forall (fun x => name_char x = true) r.
Definition entities : list (ascii * str) :=
  [("<"%char, $"lt"); (">"%char, $"gt"); ("&"%char, $"amp"); (""""%char, $"quot"); ("'"%char, $"apos")].
(** Characters of attribute values between quotes [q]; white space becomes a blank. *)
Inductive xvalue (q : ascii) : str -> str -> Prop :=
| xv_nil : xvalue q [] []
| xv_plain : forall c s t, 32 <= code c -> c <> q -> c <> "<"%char -> c <> "&"%char -> xvalue q s t -> xvalue q (c :: s) (c :: t)
| xv_white : forall c s t, In c ["009"; "010"; "013"]%char -> xvalue q s t -> xvalue q (" "%char :: s) (c :: t)
| xv_entity : forall c e s t, In (c, e) entities -> xvalue q s t -> xvalue q (c :: s) ("&"%char :: e ++ ";"%char :: t).
(** Text. *)
Inductive xtext : str -> str -> Prop :=
| xt_nil : xtext [] []
| xt_plain : forall c s t, (32 <= code c \/ In c ["009"; "010"]%char) -> c <> "<"%char -> c <> ">"%char -> c <> "&"%char ->
    xtext s t -> xtext (c :: s) (c :: t)
| xt_entity : forall c e s t, In (c, e) entities -> xtext s t -> xtext (c :: s) ("&"%char :: e ++ ";"%char :: t).
Inductive xattributes : list (str * str) -> str -> Prop :=
| xa_nil : xattributes [] []
| xa_cons : forall w n w1 w2 q v t l r, xwhite w -> w <> [] -> xname n -> xwhite w1 -> xwhite w2 -> In q [""""; "'"]%char ->
    xvalue q v t -> xattributes l r ->
    xattributes ((n, v) :: l) (w ++ n ++ w1 ++ "="%char :: w2 ++ q :: t ++ q :: r).
Definition is_text (x : xml) : Prop := exists s, x = Text s.
Inductive xelement : xml -> str -> Prop :=
| xe_content : forall n at_ ta w c tc w', xname n -> xattributes at_ ta -> NoDup (map fst at_) -> xwhite w -> xcontent c tc -> xwhite w' ->
    xelement (Element n at_ c) ("<"%char :: n ++ ta ++ w ++ ">"%char :: tc ++ "<"%char :: "/"%char :: n ++ w' ++ [">"%char])
| xe_empty : forall n at_ ta w, xname n -> xattributes at_ ta -> NoDup (map fst at_) -> xwhite w ->
    xelement (Element n at_ []) ("<"%char :: n ++ ta ++ w ++ ["/"; ">"]%char)
with xcontent : list xml -> str -> Prop :=
| xc_nil : xcontent [] []
| xc_text : forall s t l u, s <> [] -> xtext s t -> xcontent l u -> (forall x l', l = x :: l' -> ~ is_text x) ->
    xcontent (Text s :: l) (t ++ u)
| xc_element : forall e t l u, xelement e t -> xcontent l u -> xcontent (e :: l) (t ++ u).
(** The declaration of the XML version, then the document element. *)
Definition xml_text (e : xml) (text : str) : Prop :=
  exists w w1 t w2, xwhite w /\ xwhite w1 /\ xwhite w2 /\ xelement e t /\
  text = $"<?xml version=" ++ [""""%char] ++ $"1.0" ++ [""""%char] ++ $" encoding=" ++ [""""%char] ++ $"UTF-8" ++ [""""%char] ++ w ++ $"?>"
         ++ w1 ++ t ++ w2.
