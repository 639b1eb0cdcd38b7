(** The text of JSON documents: what encoding/json writes for a tree and which tree it
    reads from a text. *)
From Verif Require Import Base Types Univ LinkModel Version Numbers Utf8 GobModel JsonModel.
Local Open Scope string_scope.
Local Open Scope N_scope.

(** ** Writing *)

Definition hex_digit (n : N) : ascii := ascii_of_N (if n <? 10 then 48 + n else 87 + n).
Definition dquote : ascii := "034".
Definition backslash : ascii := "092".

(** encoding/json encode.go appendString: one byte below 0x80 *)
Definition byte_text (esc : bool) (a : ascii) : string :=
  let b := byte_of a in
  if (b =? 34) || (b =? 92) then String backslash (String a "")
  else if b =? 8 then String backslash "b"
  else if b =? 12 then String backslash "f"
  else if b =? 10 then String backslash "n"
  else if b =? 13 then String backslash "r"
  else if b =? 9 then String backslash "t"
  else if (b <? 32) || (esc && ((b =? 60) || (b =? 62) || (b =? 38))) then
    String backslash (String "u" (String "0" (String "0" (String (hex_digit (b / 16)) (String (hex_digit (b mod 16)) "")))))
  else String a "".

(** The escape of U+FFFD, which stands for a byte that is not valid UTF-8. *)
Definition replacement_text : string := String backslash "ufffd".
(** U+2028 and U+2029 *)
Definition three_text (a b c : ascii) : string :=
  if (byte_of a =? 226) && (byte_of b =? 128) && ((byte_of c =? 168) || (byte_of c =? 169))
  then String backslash (if byte_of c =? 168 then "u2028" else "u2029")
  else String a (String b (String c "")).

(** encoding/json appendString, without the quotes *)
Fixpoint str_text (esc : bool) (s : string) : string :=
  match s with
  | "" => ""
  | String a s1 =>
      if one a then byte_text esc a ++ str_text esc s1
      else match s1 with
           | "" => replacement_text
           | String b s2 =>
               if two a b then String a (String b (str_text esc s2))
               else match s2 with
                    | "" => replacement_text ++ str_text esc s1
                    | String c s3 =>
                        if three a b c then three_text a b c ++ str_text esc s3
                        else match s3 with
                             | "" => replacement_text ++ str_text esc s1
                             | String d s4 =>
                                 if four a b c d then String a (String b (String c (String d (str_text esc s4))))
                                 else replacement_text ++ str_text esc s1
                             end
                    end
           end
  end.
Definition quoted (s : string) : string := String dquote (s ++ String dquote "").

Fixpoint spaces (n : nat) : string := match n with O => "" | S n' => String " " (String " " (spaces n')) end.
Definition newline : ascii := "010".
(** encoding/json indent.go appendNewline with prefix "" and indent "  " *)
Definition line (pretty : bool) (depth : nat) : string := if pretty then String newline (spaces depth) else "".
Definition colon (pretty : bool) : string := if pretty then ": " else ":".

(** The text of a tree at a nesting depth: encode.go arrayEncoder.encode and
    structEncoder.encode, and for [pretty] indent.go appendIndent. Simplified: appendIndent
    rescans the compact text; here the layout is made from the tree. Keys come from the
    struct tags and are written as they are (the names need no escaping, see JsonOut.v). *)
Fixpoint text (pretty : bool) (depth : nat) (o : out) : string :=
  match o with
  | ONull => "null"
  | OBool b => if b then "true" else "false"
  | ONum lit => lit
  | OStr esc s => quoted (str_text esc s)
  | OArr [] => "[]"
  | OArr (x :: l) =>
      "[" ++ line pretty (S depth) ++ text pretty (S depth) x ++
      (fix more (l : list out) : string :=
         match l with
         | [] => line pretty depth ++ "]"
         | y :: l' => "," ++ line pretty (S depth) ++ text pretty (S depth) y ++ more l'
         end) l
  | OObj [] => "{}"
  | OObj ((k, x) :: ms) =>
      "{" ++ line pretty (S depth) ++ quoted k ++ colon pretty ++ text pretty (S depth) x ++
      (fix more (ms : list (string * out)) : string :=
         match ms with
         | [] => line pretty depth ++ "}"
         | (k', y) :: ms' => "," ++ line pretty (S depth) ++ quoted k' ++ colon pretty ++ text pretty (S depth) y ++ more ms'
         end) ms
  end.

(** What one call of Encoder.Encode hands to the writer (encoding/json stream.go:
    Encoder.Encode). Indenting scans the text, which fails on more than [max_depth] levels. *)
Definition encode_text (pretty : bool) (o : out) : result jerr string :=
  if (pretty && too_deep (erase o))%bool then Err ETooDeep else Ok (text pretty 0 o ++ String newline "").

(** ** Reading *)

Definition is_space (a : ascii) : bool := let b := byte_of a in (b =? 32) || (b =? 9) || (b =? 10) || (b =? 13).
Fixpoint skip_space (s : string) : string :=
  match s with String a s' => if is_space a then skip_space s' else s | "" => "" end.

(** scanner.go stateInString: the text up to the closing quote. *)
Fixpoint scan_string (s : string) : option (string * string) :=
  match s with
  | "" => None
  | String a s' =>
      if Ascii.eqb a dquote then Some ("", s')
      else if byte_of a <? 32 then None
      else if Ascii.eqb a backslash then
        match s' with
        | String b s'' => match scan_string s'' with Some (t, r) => Some (String a (String b t), r) | None => None end
        | "" => None
        end
      else match scan_string s' with Some (t, r) => Some (String a t, r) | None => None end
  end.

Definition hex_value (a : ascii) : option N :=
  let b := byte_of a in
  if (48 <=? b) && (b <=? 57) then Some (b - 48)
  else if (97 <=? b) && (b <=? 102) then Some (b - 87)
  else if (65 <=? b) && (b <=? 70) then Some (b - 55)
  else None.
(** decode.go getu4, after the letter u *)
Definition hex4 (a b c d : ascii) : option N :=
  match hex_value a, hex_value b, hex_value c, hex_value d with
  | Some w, Some x, Some y, Some z => Some (w * 4096 + x * 256 + y * 16 + z)
  | _, _, _, _ => None
  end.

(** unicode/utf8 AppendRune, for code points that are no surrogates *)
Definition rune_text (r : N) : string :=
  if r <? 0x80 then String (ascii_of_N r) ""
  else if r <? 0x800 then String (ascii_of_N (0xC0 + r / 64)) (String (ascii_of_N (0x80 + r mod 64)) "")
  else if r <? 0x10000 then
    String (ascii_of_N (0xE0 + r / 4096)) (String (ascii_of_N (0x80 + r / 64 mod 64)) (String (ascii_of_N (0x80 + r mod 64)) ""))
  else String (ascii_of_N (0xF0 + r / 262144)) (String (ascii_of_N (0x80 + r / 4096 mod 64))
         (String (ascii_of_N (0x80 + r / 64 mod 64)) (String (ascii_of_N (0x80 + r mod 64)) ""))).
Definition high (r : N) : bool := (0xD800 <=? r) && (r <? 0xDC00).
Definition low (r : N) : bool := (0xDC00 <=? r) && (r <? 0xE000).
Definition pair_rune (h l : N) : N := (h - 0xD800) * 1024 + (l - 0xDC00) + 0x10000.

Definition simple_escape (b : ascii) : option ascii :=
  let n := byte_of b in
  if (n =? 34) || (n =? 92) || (n =? 47) then Some b
  else if n =? 98 then Some (ascii_of_N 8)
  else if n =? 102 then Some (ascii_of_N 12)
  else if n =? 110 then Some (ascii_of_N 10)
  else if n =? 114 then Some (ascii_of_N 13)
  else if n =? 116 then Some (ascii_of_N 9)
  else None.

Definition prepend (p : string) (r : option string) : option string := match r with Some s => Some (p ++ s) | None => None end.

(** decode.go unquoteBytes on valid UTF-8: surrogate halves that do not form a pair become
    U+FFFD. *)
Fixpoint unescape (s : string) : option string :=
  match s with
  | "" => Some ""
  | String a s1 =>
      if negb (Ascii.eqb a backslash) then prepend (String a "") (unescape s1)
      else match s1 with
           | "" => None
           | String b s2 =>
               if negb (Ascii.eqb b "u") then
                 match simple_escape b with Some c => prepend (String c "") (unescape s2) | None => None end
               else match s2 with
                    | String h1 (String h2 (String h3 (String h4 s3))) =>
                        match hex4 h1 h2 h3 h4 with
                        | None => None
                        | Some r =>
                            if high r then
                              match s3 with
                              | String e (String u (String k1 (String k2 (String k3 (String k4 s4))))) =>
                                  match (Ascii.eqb e backslash && Ascii.eqb u "u")%bool, hex4 k1 k2 k3 k4 with
                                  | true, Some q => if low q then prepend (rune_text (pair_rune r q)) (unescape s4)
                                                    else prepend replacement (unescape s3)
                                  | _, _ => prepend replacement (unescape s3)
                                  end
                              | _ => prepend replacement (unescape s3)
                              end
                            else prepend (if low r then replacement else rune_text r) (unescape s3)
                        end
                    | _ => None
                    end
           end
  end.
(** A string, after its opening quote. unquoteBytes replaces invalid bytes while it
    resolves escapes; here that is done first, which is the same since escapes are ASCII. *)
Definition parse_string (s : string) : option (string * string) :=
  match scan_string s with
  | Some (t, r) => match unescape (to_utf8 t) with Some u => Some (u, r) | None => None end
  | None => None
  end.

Definition num_char (a : ascii) : bool :=
  is_digit a || Ascii.eqb a "-" || Ascii.eqb a "+" || Ascii.eqb a "." || Ascii.eqb a "e" || Ascii.eqb a "E".
Fixpoint span_num (s : string) : string * string :=
  match s with
  | String a s' => if num_char a then let (d, r) := span_num s' in (String a d, r) else ("", s)
  | "" => ("", "")
  end.

Fixpoint strip_prefix (p s : string) : option string :=
  match p, s with
  | "", _ => Some s
  | String a p', String b s' => if Ascii.eqb a b then strip_prefix p' s' else None
  | _, "" => None
  end.
Definition literal (p : string) (j : json) (s : string) : option (json * string) :=
  match strip_prefix p s with Some r => Some (j, r) | None => None end.

(** scanner.go and decode.go: a value, the members of an object after its brace, the
    elements of an array after its bracket. Every call uses up fuel; [parse] gives enough.
    Simplified: the scanner counts levels and stops beyond [max_depth]; here [too_deep] is
    asked afterwards (JsonModel.v). *)
Fixpoint parse_value (fuel : nat) (s : string) : option (json * string) :=
  match fuel with
  | O => None
  | S fuel =>
      match skip_space s with
      | "" => None
      | String a s' =>
          if Ascii.eqb a "{" then
            match skip_space s' with
            | String "}" r => Some (JObj [], r)
            | _ => match parse_members fuel s' with Some (ms, r) => Some (JObj ms, r) | None => None end
            end
          else if Ascii.eqb a "[" then
            match skip_space s' with
            | String "]" r => Some (JArr [], r)
            | _ => match parse_elements fuel s' with Some (l, r) => Some (JArr l, r) | None => None end
            end
          else if Ascii.eqb a dquote then
            match parse_string s' with Some (t, r) => Some (JStr t, r) | None => None end
          else if Ascii.eqb a "n" then literal "null" JNull (String a s')
          else if Ascii.eqb a "t" then literal "true" (JBool true) (String a s')
          else if Ascii.eqb a "f" then literal "false" (JBool false) (String a s')
          else let (n, r) := span_num (String a s') in if json_number n then Some (JNum n, r) else None
      end
  end
with parse_members (fuel : nat) (s : string) : option (list (string * json) * string) :=
  match fuel with
  | O => None
  | S fuel =>
      match skip_space s with
      | String a s1 =>
          if negb (Ascii.eqb a dquote) then None
          else match parse_string s1 with
               | None => None
               | Some (k, s2) =>
                   match skip_space s2 with
                   | String ":" s3 =>
                       match parse_value fuel s3 with
                       | None => None
                       | Some (v, s4) =>
                           match skip_space s4 with
                           | String "}" r => Some ([(k, v)], r)
                           | String "," s5 => match parse_members fuel s5 with Some (ms, r) => Some ((k, v) :: ms, r)%list | None => None end
                           | _ => None
                           end
                       end
                   | _ => None
                   end
               end
      | "" => None
      end
  end
with parse_elements (fuel : nat) (s : string) : option (list json * string) :=
  match fuel with
  | O => None
  | S fuel =>
      match parse_value fuel s with
      | None => None
      | Some (v, s1) =>
          match skip_space s1 with
          | String "]" r => Some ([v], r)
          | String "," s2 => match parse_elements fuel s2 with Some (l, r) => Some (v :: l, r)%list | None => None end
          | _ => None
          end
      end
  end.
Definition enough (s : string) : nat := 2 * String.length s + 2.
Definition parse (s : string) : option json :=
  match parse_value (enough s) s with
  | Some (j, r) => if String.eqb (skip_space r) "" then Some j else None
  | None => None
  end.

(** json.Unmarshal(bytes, bom) *)
Definition unmarshal_bom (s : string) (b : BOM) : result jerr BOM :=
  match parse s with Some j => bom_of_json j b | None => Err ESyntax end.

(** ** Whole encoders *)

(** /repo/encode.go:59-71: the bytes handed to the writer *)
Definition json_encode_text (pretty esc : bool) (b : BOM) : result json_encode_err string :=
  match json_encode esc b with
  | Ok o => match encode_text pretty o with Ok t => Ok t | Err e => Err (EMarshal e) end
  | Err e => Err e
  end.
(** /repo/encode.go:74-81 *)
Definition json_encode_version_text (pretty esc : bool) (sv : SpecVersion) (b : BOM) : result json_encode_err string :=
  match copyAndConvert sv b with
  | Ok c => json_encode_text pretty esc c
  | Err _ => Err (EMarshal EEmptyOutput)
  end.
