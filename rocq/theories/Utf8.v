(** UTF-8, as package unicode/utf8 decodes it. *)
From Verif Require Import Base.
Local Open Scope string_scope.
Local Open Scope N_scope.

Definition between (lo hi : N) (c : ascii) : bool := (lo <=? byte_of c) && (byte_of c <=? hi).
Definition cont (c : ascii) : bool := between 0x80 0xBF c.

(** Well-formed sequences of two, three and four bytes (utf8.DecodeRuneInString,
    table "first" and acceptRanges). *)
Definition two (a b : ascii) : bool := between 0xC2 0xDF a && cont b.
Definition three (a b c : ascii) : bool :=
  (between 0xE0 0xE0 a && between 0xA0 0xBF b ||
   between 0xE1 0xEC a && cont b ||
   between 0xED 0xED a && between 0x80 0x9F b ||
   between 0xEE 0xEF a && cont b) && cont c.
Definition four (a b c d : ascii) : bool :=
  (between 0xF0 0xF0 a && between 0x90 0xBF b ||
   between 0xF1 0xF3 a && cont b ||
   between 0xF4 0xF4 a && between 0x80 0x8F b) && cont c && cont d.
Definition one (a : ascii) : bool := byte_of a <? 0x80.

(** U+FFFD *)
Definition replacement : string := String "239" (String "191" (String "189" "")).

(** The text with every byte that is not part of a well-formed sequence replaced by
    U+FFFD: what encoding/json and encoding/xml make of a Go string. *)
Fixpoint to_utf8 (s : string) : string :=
  match s with
  | "" => ""
  | String a s1 =>
      if one a then String a (to_utf8 s1)
      else match s1 with
           | "" => replacement
           | String b s2 =>
               if two a b then String a (String b (to_utf8 s2))
               else match s2 with
                    | "" => replacement ++ to_utf8 s1
                    | String c s3 =>
                        if three a b c then String a (String b (String c (to_utf8 s3)))
                        else match s3 with
                             | "" => replacement ++ to_utf8 s1
                             | String d s4 =>
                                 if four a b c d then String a (String b (String c (String d (to_utf8 s4))))
                                 else replacement ++ to_utf8 s1
                             end
                    end
           end
  end.

(** Valid UTF-8: a sequence of well-formed sequences. *)
Inductive utf8 : string -> Prop :=
| utf8_nil : utf8 ""
| utf8_1 a s : one a = true -> utf8 s -> utf8 (String a s)
| utf8_2 a b s : two a b = true -> utf8 s -> utf8 (String a (String b s))
| utf8_3 a b c s : three a b c = true -> utf8 s -> utf8 (String a (String b (String c s)))
| utf8_4 a b c d s : four a b c d = true -> utf8 s -> utf8 (String a (String b (String c (String d s)))).
