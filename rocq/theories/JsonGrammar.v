(** The grammar of JSON (RFC 8259), as a relation between texts and trees: the
    specification for C40. It does not mention the parser. *)
From Verif Require Import Base Numbers Utf8 JsonModel JsonText.
Local Open Scope string_scope.

(** Text written between two quotation marks: no quotation mark, no control character; a
    backslash goes with the byte after it. *)
Inductive unbroken : string -> Prop :=
| un_end : unbroken ""
| un_byte a s : a <> dquote -> a <> backslash -> (32 <= byte_of a)%N -> unbroken s -> unbroken (String a s)
| un_escape b s : unbroken s -> unbroken (String backslash (String b s)).

(** The value of four hexadecimal digits *)
Definition hexadecimal (a : ascii) (n : N) : Prop :=
  (48 <= byte_of a <= 57 /\ n = byte_of a - 48 \/ 97 <= byte_of a <= 102 /\ n = byte_of a - 87 \/ 65 <= byte_of a <= 70 /\ n = byte_of a - 55)%N.
Definition unit_of (s : string) (n : N) : Prop :=
  exists a b c d w x y z, s = String a (String b (String c (String d ""))) /\
    hexadecimal a w /\ hexadecimal b x /\ hexadecimal c y /\ hexadecimal d z /\ n = (((w * 16 + x) * 16 + y) * 16 + z)%N.
Definition high_half (n : N) : Prop := (0xD800 <= n < 0xDC00)%N.
Definition low_half (n : N) : Prop := (0xDC00 <= n < 0xE000)%N.
(** The escapes of one letter *)
Definition letter_escapes : list (ascii * ascii) :=
  [(dquote, dquote); (backslash, backslash); ("/"%char, "/"%char); ("b"%char, "008"%char); ("f"%char, "012"%char);
   ("n"%char, "010"%char); ("r"%char, "013"%char); ("t"%char, "009"%char)].
(** [content t s]: the text [t] between quotation marks stands for [s]. Halves of a
    surrogate pair that stand alone become U+FFFD, as in encoding/json. *)
Inductive content : string -> string -> Prop :=
| co_end : content "" ""
| co_byte a t s : a <> backslash -> content t s -> content (String a t) (String a s)
| co_letter b c t s : In (b, c) letter_escapes -> content t s -> content (String backslash (String b t)) (String c s)
| co_unit h n t s : unit_of h n -> ~ high_half n -> ~ low_half n -> content t s ->
    content (String backslash (String "u" (h ++ t))) (rune_text n ++ s)
| co_pair h l n m t s : unit_of h n -> high_half n -> unit_of l m -> low_half m -> content t s ->
    content (String backslash (String "u" (h ++ String backslash (String "u" (l ++ t))))) (rune_text (0x10000 + (n - 0xD800) * 0x400 + (m - 0xDC00)) ++ s)
| co_low h n t s : unit_of h n -> low_half n -> content t s -> content (String backslash (String "u" (h ++ t))) (replacement ++ s)
| co_high h n t s : unit_of h n -> high_half n -> (forall l m t', t = String backslash (String "u" (l ++ t')) -> unit_of l m -> ~ low_half m) -> content t s ->
    content (String backslash (String "u" (h ++ t))) (replacement ++ s).
(** A string token. Bytes that are not UTF-8 become U+FFFD, as in encoding/json. *)
Inductive string_token : string -> string -> Prop :=
| st t s : unbroken t -> content (to_utf8 t) s -> string_token (String dquote (t ++ String dquote "")) s.

(** Numbers: an optional minus, digits without a leading zero, an optional fraction, an
    optional exponent. *)
Inductive digits : string -> Prop :=
| dg_one a : is_digit a = true -> digits (String a "")
| dg_more a s : is_digit a = true -> digits s -> digits (String a s).
Definition whole (s : string) : Prop := s = "0" \/ exists a r, s = String a r /\ is_digit a = true /\ a <> "0"%char /\ (r = "" \/ digits r).
Definition sign_of (s : string) : Prop := s = "" \/ s = "-".
Definition fraction (s : string) : Prop := s = "" \/ exists d, s = String "." d /\ digits d.
Definition exponent (s : string) : Prop := s = "" \/ exists e g d, s = String e (g ++ d) /\ (e = "e"%char \/ e = "E"%char) /\ (g = "" \/ g = "+" \/ g = "-") /\ digits d.
Inductive number_token : string -> Prop :=
| nt m w f e : sign_of m -> whole w -> fraction f -> exponent e -> number_token (m ++ w ++ f ++ e).

(** Space, tab, line feed, carriage return *)
Inductive white : string -> Prop :=
| wh_end : white ""
| wh_more a s : In a [" "; "009"; "010"; "013"]%char -> white s -> white (String a s).

(** [document s j]: the text [s] stands for the tree [j], with white space around it. *)
Inductive value : string -> json -> Prop :=
| va_null : value "null" JNull
| va_true : value "true" (JBool true)
| va_false : value "false" (JBool false)
| va_number n : number_token n -> value n (JNum n)
| va_string t s : string_token t s -> value t (JStr s)
| va_nothing w : white w -> value ("[" ++ w ++ "]") (JArr [])
| va_array s l : elements s l -> value ("[" ++ s ++ "]") (JArr l)
| va_empty w : white w -> value ("{" ++ w ++ "}") (JObj [])
| va_object s ms : members s ms -> value ("{" ++ s ++ "}") (JObj ms)
with document : string -> json -> Prop :=
| dc v s w j : white v -> value s j -> white w -> document (v ++ s ++ w) j
with elements : string -> list json -> Prop :=
| el_last s j : document s j -> elements s [j]
| el_more s j t l : document s j -> elements t l -> elements (s ++ "," ++ t) (j :: l)
with members : string -> list (string * json) -> Prop :=
| me_last v q k w s j : white v -> string_token q k -> white w -> document s j -> members (v ++ q ++ w ++ ":" ++ s) [(k, j)]
| me_more v q k w s j t ms : white v -> string_token q k -> white w -> document s j -> members t ms ->
    members (v ++ q ++ w ++ ":" ++ s ++ "," ++ t) ((k, j) :: ms).
