(** * The JSON grammar (RFC 8259), independently of OCLint *)
From Verif Require Import Base.

(** What the characters of a string stand for: bytes, or UTF-16 units written with four hexadecimal digits. *)
Inductive jchar := JByte (c : ascii) | JUnit (h1 h2 h3 h4 : ascii).
(** Numbers are kept as they are written. *)
Inductive json :=
| JNull | JTrue | JFalse
| JNumber (lexeme : str)
| JString (chars : list jchar)
| JArray (elements : list json)
| JObject (members : list (list jchar * json)).

Definition white (s : str) : Prop := Forall (fun c => In c [" "; "009"; "010"; "013"]%char) s.
Definition hex (c : ascii) : Prop := isdigit c = true \/ In c (list_ascii_of_string "abcdefABCDEF").
Definition digits (s : str) : Prop := s <> [] /\ Forall (fun c => isdigit c = true) s.
(** -? (0 | [1-9][0-9]* ) (. [0-9]+)? ([eE] [+-]? [0-9]+)? *)
Inductive jnumber : str -> Prop :=
| jn : forall sign int frac exp, (sign = [] \/ sign = $"-") ->
    (int = $"0" \/ (exists d ds, int = d :: ds /\ digits int /\ d <> "0"%char)) ->
    (frac = [] \/ exists f, frac = "."%char :: f /\ digits f) ->
    (exp = [] \/ exists e s x, exp = e :: s ++ x /\ In e ["e"; "E"]%char /\ (s = [] \/ s = $"+" \/ s = $"-") /\ digits x) ->
    jnumber (sign ++ int ++ frac ++ exp).
(** One character of a string and its text. *)
Inductive jcharacter : jchar -> str -> Prop :=
| jc_plain : forall c, c <> """"%char -> c <> "\"%char -> 32 <= code c -> jcharacter (JByte c) [c]
| jc_quote : jcharacter (JByte """"%char) ["\"; """"]%char
| jc_backslash : jcharacter (JByte "\"%char) ["\"; "\"]%char
| jc_slash : jcharacter (JByte "/"%char) ["\"; "/"]%char
| jc_b : jcharacter (JByte "008"%char) ["\"; "b"]%char
| jc_f : jcharacter (JByte "012"%char) ["\"; "f"]%char
| jc_n : jcharacter (JByte "010"%char) ["\"; "n"]%char
| jc_r : jcharacter (JByte "013"%char) ["\"; "r"]%char
| jc_t : jcharacter (JByte "009"%char) ["\"; "t"]%char
| jc_unit : forall a b c d, hex a -> hex b -> hex c -> hex d -> jcharacter (JUnit a b c d) ["\"; "u"; a; b; c; d]%char.
Inductive jcharacters : list jchar -> str -> Prop :=
| jcs_nil : jcharacters [] []
| jcs_cons : forall c t l s, jcharacter c t -> jcharacters l s -> jcharacters (c :: l) (t ++ s).
Definition jstring (l : list jchar) (t : str) : Prop := exists s, jcharacters l s /\ t = """"%char :: s ++ [""""%char].

Inductive jvalue : json -> str -> Prop :=
| jv_null : jvalue JNull $"null"
| jv_true : jvalue JTrue $"true"
| jv_false : jvalue JFalse $"false"
| jv_number : forall s, jnumber s -> jvalue (JNumber s) s
| jv_string : forall l t, jstring l t -> jvalue (JString l) t
| jv_array_nil : forall w, white w -> jvalue (JArray []) ("["%char :: w ++ ["]"%char])
| jv_array : forall l t, jelements l t -> jvalue (JArray l) ("["%char :: t ++ ["]"%char])
| jv_object_nil : forall w, white w -> jvalue (JObject []) ("{"%char :: w ++ ["}"%char])
| jv_object : forall l t, jmembers l t -> jvalue (JObject l) ("{"%char :: t ++ ["}"%char])
with jelements : list json -> str -> Prop :=
| je_one : forall j w t w', white w -> jvalue j t -> white w' -> jelements [j] (w ++ t ++ w')
| je_more : forall j w t w' l s, white w -> jvalue j t -> white w' -> jelements l s ->
    jelements (j :: l) (w ++ t ++ w' ++ ","%char :: s)
with jmembers : list (list jchar * json) -> str -> Prop :=
| jm_one : forall k kt j t w1 w2 w3 w4, white w1 -> jstring k kt -> white w2 -> white w3 -> jvalue j t -> white w4 ->
    jmembers [(k, j)] (w1 ++ kt ++ w2 ++ ":"%char :: w3 ++ t ++ w4)
| jm_more : forall k kt j t w1 w2 w3 w4 l s, white w1 -> jstring k kt -> white w2 -> white w3 -> jvalue j t -> white w4 ->
    jmembers l s -> jmembers ((k, j) :: l) (w1 ++ kt ++ w2 ++ ":"%char :: w3 ++ t ++ w4 ++ ","%char :: s).
(** A text that is the value [j]. *)
Definition json_text (j : json) (text : str) : Prop := exists w t w', text = w ++ t ++ w' /\ white w /\ jvalue j t /\ white w'.
(** The string with the bytes [s]. *)
Definition jstr (s : str) : json := JString (map JByte s).
