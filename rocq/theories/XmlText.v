(** The text of XML documents: what encoding/xml writes for a tree and which tree it reads
    from a text. encoding/xml is not part of /repo; the functions of Go's standard library
    that are modelled are named. *)
From Verif Require Import Base Types Univ Wt LinkModel Numbers Utf8 JsonText XmlModel.
Local Open Scope string_scope.

(** ** Writing *)

(** escapeText with escapeNewline = true (EscapeText, EscapeString), one byte. The
    replacement of characters that XML does not allow has been done in the tree
    ([xml_clean]); bytes from 0x80 on are written as they are. *)
Definition quote_mark : ascii := "034".
Definition xml_escape_byte (a : ascii) : string :=
  let b := byte_of a in
  if (b =? 34)%N then "&#34;"
  else if (b =? 39)%N then "&#39;"
  else if (b =? 38)%N then "&amp;"
  else if (b =? 60)%N then "&lt;"
  else if (b =? 62)%N then "&gt;"
  else if (b =? 9)%N then "&#x9;"
  else if (b =? 10)%N then "&#xA;"
  else if (b =? 13)%N then "&#xD;"
  else String a "".
Fixpoint xml_escape (s : string) : string :=
  match s with "" => "" | String a s' => xml_escape_byte a ++ xml_escape s' end.

(** printer.writeStart, the attributes *)
Definition attr_text (p : string * string) : string :=
  " " ++ fst p ++ "=" ++ String quote_mark (xml_escape (snd p) ++ String quote_mark "").
Definition concat_map {A} (f : A -> string) : list A -> string :=
  fix go (l : list A) : string := match l with [] => "" | x :: l' => f x ++ go l' end.
(** printer.writeStart and writeEnd; no element that the encoder writes has a name space
    of its own. *)
Definition start_text (local : string) (attrs : list (string * string)) : string :=
  "<" ++ local ++ concat_map attr_text attrs ++ ">".
Definition end_text (local : string) : string := "</" ++ local ++ ">".
Definition line (depth : nat) : string := String "010" (blanks depth).

(** printer.marshalValue, with printer.writeIndent if the encoder indents by two spaces. *)
Fixpoint xml_text (pretty : bool) (depth : nat) (x : xml) : string :=
  match x with
  | XText s => xml_escape s
  | XElem _ local attrs kids =>
      start_text local attrs ++
      (if (pretty && existsb is_elem kids)%bool
       then concat_map (fun k => match k with XText s => xml_escape s | _ => line (S depth) ++ xml_text pretty (S depth) k end) kids ++ line depth
       else concat_map (xml_text pretty depth) kids) ++
      end_text local
  end.
(** xml.Header, which xmlBOMEncoder.Encode writes first: /repo/encode.go:100-102. *)
Definition xml_header : string :=
  "<?xml version=" ++ String quote_mark "1.0" ++ String quote_mark " encoding=" ++ String quote_mark "UTF-8" ++ String quote_mark "?>" ++ String "010" "".

(** ** Reading: Decoder.rawToken *)

(** isNameByte, or the beginning or a part of a character beyond ASCII (Decoder.readName). *)
Definition name_byte (a : ascii) : bool :=
  in_range "A" "Z" a || in_range "a" "z" a || in_range "0" "9" a || existsb (Ascii.eqb a) ["_"; ":"; "."; "-"]%char.
Fixpoint span (p : ascii -> bool) (s : string) : string * string :=
  match s with
  | "" => ("", "")
  | String a s' => if p a then let (x, r) := span p s' in (String a x, r) else ("", s)
  end.
(** isName, for names in ASCII. Simplified: a name with characters beyond ASCII is taken
    for malformed, while encoding/xml accepts those that are in its table of letters. *)
Definition is_name (s : string) : bool :=
  match s with
  | "" => false
  | String a s' => (in_range "A" "Z" a || in_range "a" "z" a || existsb (Ascii.eqb a) ["_"; ":"]%char) && str_all name_byte s'
  end.
(** Decoder.name *)
Definition read_name (s : string) : option (string * string) :=
  let (n, r) := span (fun a => name_byte a || negb (one a)) s in if is_name n then Some (n, r) else None.

(** strings.Cut at a colon *)
Fixpoint cut (s : string) : option (string * string) :=
  match s with
  | "" => None
  | String a s' =>
      if Ascii.eqb a ":" then Some ("", s')
      else match cut s' with Some (x, y) => Some (String a x, y) | None => None end
  end.
(** Names as they stand in the text: prefix (Space) and local name. *)
Definition pname : Type := string * string.
(** Decoder.nsname *)
Definition split_name (s : string) : option pname :=
  match cut s with
  | None => Some ("", s)
  | Some (x, y) => match cut y with
                   | Some _ => None
                   | None => if (String.eqb x "" || String.eqb y "")%bool then Some ("", s) else Some (x, y)
                   end
  end.
Definition read_pname (s : string) : option (pname * string) :=
  match read_name s with
  | Some (n, r) => match split_name n with Some p => Some (p, r) | None => None end
  | None => None
  end.
(** Decoder.space *)
Definition space_byte (a : ascii) : bool := existsb (Ascii.eqb a) [" "; "013"; "010"; "009"]%char.
Definition skip_space (s : string) : string := snd (span space_byte s).

(** *** Decoder.text *)

(** Digits to a base, strconv.ParseUint; larger numbers than 64 bits are no characters
    either way. *)
Fixpoint number (base : N) (sofar : N) (s : string) : option N :=
  match s with
  | "" => Some sofar
  | String a s' => match hex_value a with
                   | Some d => if (d <? base)%N then number base (sofar * base + d) s' else None
                   | None => None
                   end
  end.
(** What stands between & and ; and which text it means. string(rune(n)) is U+FFFD for
    surrogates. Only the five entities of XML are known: Decoder.Entity is not set. *)
Definition code_point (n : N) : option string :=
  if (n <=? 0x10FFFF)%N then Some (if (high n || low n)%bool then replacement else rune_text n) else None.
Definition entity (s : string) : option string :=
  match s with
  | String "#" (String "x" s') => if String.eqb s' "" then None else match number 16 0 s' with Some n => code_point n | None => None end
  | String "#" s' => if String.eqb s' "" then None else match number 10 0 s' with Some n => code_point n | None => None end
  | _ => assoc s [("lt", "<"); ("gt", ">"); ("amp", "&"); ("apos", "'"); ("quot", String quote_mark "")]
  end.

Definition add_before (p : string) (r : option (string * string)) : option (string * string) :=
  match r with Some (x, rest) => Some (p ++ x, rest) | None => None end.
(** Decoder.text(quote, false): up to the closing quote (which is consumed) or the next <
    (which is not). [ent] holds what has been read of an entity, backwards; [b0], [b1] are the
    two bytes before. *)
Fixpoint read_text (quote : option ascii) (ent : option string) (b0 b1 : ascii) (s : string) : option (string * string) :=
  match s with
  | "" => match quote, ent with None, None => Some ("", "") | _, _ => None end
  | String b s' =>
      match ent with
      | Some e =>
          if Ascii.eqb b ";"
          then match entity (string_rev e "") with
               | Some t => add_before t (read_text quote None "000" "000" s')
               | None => None
               end
          else read_text quote (Some (String b e)) b0 b1 s'
      | None =>
          if (match quote with None => true | Some _ => false end && Ascii.eqb b0 "]" && Ascii.eqb b1 "]" && Ascii.eqb b ">")%bool then None
          else if Ascii.eqb b "<" then match quote with Some _ => None | None => Some ("", s) end
          else if match quote with Some q => Ascii.eqb b q | None => false end then Some ("", s')
          else if Ascii.eqb b "&" then read_text quote (Some "") b0 b1 s'
          else add_before (if Ascii.eqb b "013" then String "010" ""
                           else if (Ascii.eqb b1 "013" && Ascii.eqb b "010")%bool then ""
                           else String b "")
                 (read_text quote None b1 b s')
      end
  end.
(** The runes are checked at the end: valid UTF-8, and allowed in XML. *)
Definition legal (s : string) : bool := String.eqb (xml_clean s) s.
Definition checked_text (r : option (string * string)) : option (string * string) :=
  match r with Some (x, rest) => if legal x then Some (x, rest) else None | None => None end.

(** Decoder.text(-1, true): up to ]]> *)
Fixpoint read_cdata (b0 b1 : ascii) (s : string) : option (string * string) :=
  match s with
  | "" => None
  | String b s' =>
      if (Ascii.eqb b0 "]" && Ascii.eqb b1 "]" && Ascii.eqb b ">")%bool then Some ("", s')
      else add_before (if Ascii.eqb b "013" then String "010" ""
                       else if (Ascii.eqb b1 "013" && Ascii.eqb b "010")%bool then ""
                       else String b "")
             (read_cdata b1 b s')
  end.
Definition chop2 (r : option (string * string)) : option (string * string) :=
  match r with Some (x, rest) => Some (String.substring 0 (String.length x - 2) x, rest) | None => None end.

(** *** Comments, directives, processing instructions *)

Fixpoint skip_comment (strict : bool) (b0 b1 : ascii) (s : string) : option string :=
  match s with
  | "" => None
  | String b s' =>
      if (Ascii.eqb b0 "-" && Ascii.eqb b1 "-")%bool
      then if Ascii.eqb b ">" then Some s' else if strict then None else skip_comment strict b1 b s'
      else skip_comment strict b1 b s'
  end.
(** <!DOCTYPE ...> and the like: quotes, nested angle brackets and comments. *)
Fixpoint skip_directive (fuel : nat) (inquote : option ascii) (depth : nat) (s : string) : option string :=
  match fuel, s with
  | O, _ | _, "" => None
  | S fuel', String b s' =>
      match inquote with
      | Some q => skip_directive fuel' (if Ascii.eqb b q then None else inquote) depth s'
      | None =>
          if Ascii.eqb b ">" then match depth with O => Some s' | S d => skip_directive fuel' None d s' end
          else if (Ascii.eqb b "'" || Ascii.eqb b quote_mark)%bool then skip_directive fuel' (Some b) depth s'
          else if Ascii.eqb b "<" then
            match Base.strip_prefix "!--" s' with
            | Some r => match skip_comment false "000" "000" r with Some r' => skip_directive fuel' None depth r' | None => None end
            | None => skip_directive fuel' None (S depth) s'
            end
          else skip_directive fuel' None depth s'
      end
  end.

(** procInst: the value of a pseudo attribute *)
Fixpoint after_first (p s : string) : option string :=
  match Base.strip_prefix p s with
  | Some r => Some r
  | None => match s with "" => None | String _ s' => after_first p s' end
  end.
Fixpoint until (q : ascii) (s : string) : option string :=
  match s with
  | "" => None
  | String a s' => if Ascii.eqb a q then Some "" else match until q s' with Some x => Some (String a x) | None => None end
  end.
Fixpoint pseudo_attr (fuel : nat) (p s : string) : string :=
  match fuel with
  | O => ""
  | S fuel' =>
      match after_first (p ++ "=") s with
      | None | Some "" => ""
      | Some (String c r) =>
          if (Ascii.eqb c "'" || Ascii.eqb c quote_mark)%bool then match until c r with Some v => v | None => "" end
          else pseudo_attr fuel' p r
      end
  end.
Fixpoint read_instruction (b0 : ascii) (s : string) : option (string * string) :=
  match s with
  | "" => None
  | String b s' => if (Ascii.eqb b0 "?" && Ascii.eqb b ">")%bool then Some ("", s') else add_before (String b "") (read_instruction b s')
  end.
(** Only version 1.0 and UTF-8: Decoder.CharsetReader is not set. *)
Definition instruction_ok (target content : string) : bool :=
  if String.eqb target "xml"
  then let v := pseudo_attr (S (String.length content)) "version" content in
       let e := pseudo_attr (S (String.length content)) "encoding" content in
       (String.eqb v "" || String.eqb v "1.0") && (String.eqb e "" || String.eqb (lower_string e) "utf-8")
  else true.

(** *** Elements *)

Inductive token :=
| TStart (name : pname) (attrs : list (pname * string)) (empty : bool)
| TEnd (name : pname)
| TText (s : string)
| TSkip.

(** Decoder.attrval; Strict is true. *)
Definition read_value (s : string) : option (string * string) :=
  match s with
  | String q s' => if (Ascii.eqb q "'" || Ascii.eqb q quote_mark)%bool then checked_text (read_text (Some q) None "000" "000" s') else None
  | "" => None
  end.
Fixpoint read_attrs (fuel : nat) (s : string) : option (list (pname * string) * bool * string) :=
  match fuel with
  | O => None
  | S fuel' =>
      match skip_space s with
      | String "/" (String ">" r) => Some ([], true, r)
      | String ">" r => Some ([], false, r)
      | s1 => match read_pname s1 with
              | None => None
              | Some (n, s2) =>
                  match skip_space s2 with
                  | String "=" s3 => match read_value (skip_space s3) with
                                     | None => None
                                     | Some (v, s4) => match read_attrs fuel' s4 with
                                                       | Some (l, e, r) => Some ((n, v) :: l, e, r)
                                                       | None => None
                                                       end
                                     end
                  | _ => None
                  end
              end
      end
  end.

(** Decoder.rawToken *)
Definition next_token (s : string) : option (token * string) :=
  match s with
  | "" => None
  | String "<" (String "/" s1) =>
      match read_pname s1 with
      | Some (n, s2) => match skip_space s2 with String ">" r => Some (TEnd n, r) | _ => None end
      | None => None
      end
  | String "<" (String "?" s1) =>
      match read_name s1 with
      | Some (target, s2) => match read_instruction "000" (skip_space s2) with
                             | Some (content, r) => if instruction_ok target (String.substring 0 (String.length content - 1) content) then Some (TSkip, r) else None
                             | None => None
                             end
      | None => None
      end
  | String "<" (String "!" s1) =>
      match s1 with
      | String "-" s2 => match s2 with
                         | String "-" s3 => match skip_comment true "000" "000" s3 with Some r => Some (TSkip, r) | None => None end
                         | _ => None
                         end
      | String "[" s2 => match Base.strip_prefix "CDATA[" s2 with
                         | Some s3 => match checked_text (chop2 (read_cdata "000" "000" s3)) with Some (x, r) => Some (TText x, r) | None => None end
                         | None => None
                         end
      | String _ s2 => match skip_directive (S (String.length s2)) None 0 s2 with Some r => Some (TSkip, r) | None => None end
      | "" => None
      end
  | String "<" s1 =>
      match read_pname s1 with
      | Some (n, s2) => match read_attrs (S (String.length s2)) s2 with Some (l, e, r) => Some (TStart n l e, r) | None => None end
      | None => None
      end
  | _ => match checked_text (read_text None None "000" "000" s) with Some (x, r) => Some (TText x, r) | None => None end
  end.

(** ** Name spaces: Decoder.Token, pushElement, popElement, translate *)

Definition xml_url : string := "http://www.w3.org/XML/1998/namespace".
Definition spaces_in_force : Type := list (string * string).
Fixpoint declare (attrs : list (pname * string)) (ns : spaces_in_force) : spaces_in_force :=
  match attrs with
  | [] => ns
  | ((sp, n), v) :: attrs' =>
      declare attrs' (if String.eqb sp "xmlns" then (n, v) :: ns
                      else if (String.eqb sp "" && String.eqb n "xmlns")%bool then ("", v) :: ns
                      else ns)
  end.
Definition element_space (ns : spaces_in_force) (n : pname) : string :=
  if String.eqb (fst n) "xmlns" then fst n
  else if (String.eqb (fst n) "" && String.eqb (snd n) "xmlns")%bool then ""
  else if String.eqb (fst n) "xml" then xml_url
  else match assoc (fst n) ns with Some u => u | None => fst n end.
(** The fields of the structs ask for no name space, so only the local names of
    attributes matter. *)
Definition local_attrs (attrs : list (pname * string)) : list (string * string) := map (fun p => (snd (fst p), snd p)) attrs.

(** An element that is still open; the children backwards. *)
Record frame := mkFrame { fr_name : pname; fr_ns : spaces_in_force; fr_attrs : list (pname * string); fr_kids : list xml }.
Definition closed (f : frame) : xml := XElem (element_space (fr_ns f) (fr_name f)) (snd (fr_name f)) (local_attrs (fr_attrs f)) (rev (fr_kids f)).
Definition add_kid (x : xml) (f : frame) : frame := mkFrame (fr_name f) (fr_ns f) (fr_attrs f) (x :: fr_kids f).
Definition pname_eqb (a b : pname) : bool := String.eqb (fst a) (fst b) && String.eqb (snd a) (snd b).

(** Decoder.Decode reads up to the first start element, and from there up to its end
    element; what follows is not looked at. Simplified: the tree is built first and
    then decoded, while encoding/xml does both at once; a document that is malformed after
    the place where decoding fails fails in either case, with another error. *)
Fixpoint build (fuel : nat) (s : string) (st : list frame) : option (xml * string) :=
  match fuel with
  | O => None
  | S fuel' =>
      match next_token s with
      | None => None
      | Some (t, r) =>
          match t, st with
          | TSkip, _ => build fuel' r st
          | TText x, [] => build fuel' r []
          | TText x, f :: st' => build fuel' r (add_kid (XText x) f :: st')
          | TStart n attrs e, _ =>
              let f := mkFrame n (declare attrs (match st with [] => [] | g :: _ => fr_ns g end)) attrs [] in
              if e then match st with
                        | [] => Some (closed f, r)
                        | g :: st' => build fuel' r (add_kid (closed f) g :: st')
                        end
              else build fuel' r (f :: st)
          | TEnd n, [] => None
          | TEnd n, f :: st' =>
              if pname_eqb n (fr_name f)
              then match st' with
                   | [] => Some (closed f, r)
                   | g :: st'' => build fuel' r (add_kid (closed f) g :: st'')
                   end
              else None
          end
      end
  end.
Definition xml_parse (s : string) : option xml := option_map fst (build (S (String.length s)) s []).

(** ** Documents *)

Inductive xml_decode_error := XSyntax | XTree (e : xerr).
(** xml.NewDecoder(reader).Decode and the version: /repo/decode.go:58-72, on all bytes of
    the reader. *)
Definition xml_unmarshal (entries : list (SpecVersion * string)) (s : string) (b : BOM) : result xml_decode_error BOM :=
  match xml_parse s with
  | None => Err XSyntax
  | Some x => match bom_of_xml entries x b with Ok c => Ok c | Err e => Err (XTree e) end
  end.
(** What Encode writes: /repo/encode.go:99-110. *)
Definition xml_encode_text (pretty : bool) (b : BOM) : result xerr string :=
  bind (bom_to_xml b) (fun els => Ok (xml_header ++ concat_map (xml_text pretty 0) els)).
